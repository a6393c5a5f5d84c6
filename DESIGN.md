# Formal model of tickbh/webparse — design

Everything is in Rocq/Coq 8.16.1 under `rocq/theories/` (logical name `Verif`).
The properties are listed in `properties.jsonl` (C01 …), the state of each claim
is in `MANIFEST.json`, the mutation-testing log in `seeded/LOG.jsonl`.

## 1. Layout

| files | content |
|---|---|
| `Base.v` | bytes, results, errors, big-endian integers, UTF-8 |
| `M_*.v` (model) | one file per source module, function by function; no proofs |
| `S_*.v` (spec) | small specifications, written independently of the model |
| `P_*.v` (proof) | lemmas |
| `T_*.v` (theorems) | the property theorems, one-line proofs, `Print Assumptions`, and the non-vacuity examples |

## 2. Modelling conventions

* A byte is an `N`; inputs that stand for Rust `u8` data carry `bytes_ok l`
  (every element `< 256`) where it matters. A Rust `String` is the list of its
  UTF-8 bytes.
* `WebResult<T>` is `res T := Ok x | Err e | Panic | Diverge`. `Err` carries the
  `WebError` variant. Every panic path (index, `unwrap`, `assert!`, arithmetic
  overflow of a debug build) is an explicit `Panic`. Loops are structural
  recursion on the input where possible; where the code can really fail to
  terminate (HPACK size update, DATA with frame size 0), the model has fuel and
  fuel exhaustion is the explicit value `Diverge`.
* A buffer (`Bt`/`BtMut` of the external crate `algorithm`) is the list of its
  remaining bytes: `peek`/`get_next` look at/remove the head, `advance n` drops
  `n`, `put_*` append (big endian), `chunk()` is the whole remaining list. A parser is a function
  `list N -> res (A * list N)` returning the rest.
* `usize` is 64-bit. Where a length computation can overflow it, the model says so.
* `HeaderName`/`HeaderValue`: the two representations (`Stand`, `Value`) are
  observationally equal through `as_bytes`/`eq`; the model keeps the
  bytes only. The one place the representation is observable
  (`TryInto<usize>` on `Stand` uses `str::parse`) is modelled separately.
  M_Value keeps the representation, and C88 proves this simplification sound.

## 3. Trusted base

* Coq's kernel (`coqc` 8.16.1, also re-checked with `coqchk -o`), including `vm_compute`.
* No axioms: `Print Assumptions` for every theorem is expected to say
  "Closed under the global context". See section 6 for the actual list.
* The correspondence between the Gallina definitions and the Rust text, by
  reading (each definition cites file and lines). The code was not compiled or run.
* Not modelled, and assumed to behave as documented: the `algorithm` crate's
  buffers (source not available), `std` (`String::from_utf8`,
  `from_utf8_lossy`, integer `parse`/`from_str_radix`, `format!` of integers,
  `HashMap`, `VecDeque`), `bitflags`, and the `base64` crate's URL_SAFE_NO_PAD
  engine (its alphabet and canonical-trailing-bits rule are modelled from RFC 4648).
* `std::sync::RwLock` is modelled from its documentation (`M_Share.v`: mutual
  exclusion, poisoning; which waiting thread goes first is left open). Memory
  accesses under the lock are sequentially consistent.
* Not modelled at all: `Debug` impls, logging, I/O traits.
* `STATIC_HASH`: a `HashMap` whose key type violates the Hash/Eq contract
  (C16) has unspecified behaviour for the offending keys; the model takes the
  natural one (lookup succeeds iff hash input and equality agree).

## 4. Plan per property

"RT" = round-trip proved by induction on the data; "EXT" = extension-stability
by structural induction on the parser; "REF" = refinement to an abstract
machine over histories; "FIN" = finite domain decided by `vm_compute` and lifted.

* **C01** model `HeaderMap::encode`, `Helper::parse_header`; RT by induction on the header list.
* **C02** model `parse_buffer`; direct computation of the parser on the rendered head, using token-scanner lemmas.
* **C03** model `encode_header`; RT for URLs whose path needs no escaping and with no query (`_partial`); the general statement is refuted (query dropped, path written decoded); `C03_exact`: the round trip succeeds if and only if those conditions hold, from C02's exact language and C23's meaning of every URL text.
* **C04** EXT for every helper, composed up to `parse_buffer`.
* **C05** corollary of C04 stated separately with `firstn`.
* **C06** EXT in the strong form "depends only on the consumed prefix".
* **C07** no `Panic`/`Diverge` by cases.
* **C08** refuted: a concrete head, every continuation of which is Partial. Exact part: the inputs that stay Partial for ever have a grammar (`S_Wait.v`); for any other the first stage that ran out of input is resumed with CR CR CR and refuses.
* **C09** RT for codes with a canonical reason (`_partial`), refuted for the others (encode fails); `C09_exact`: if and only if.
* **C10** FIN on codes + case analysis on byte strings.
* **C11** FIN + case analysis.
* **C12** RT, induction on the list of chunks; hex printing/parsing inverse proved by strong induction.
* **C13** prefix part EXT; totality refuted (size line ≥ 2^64), partial theorem for size lines of ≤ 15 digits.
* **C14** REF to an association list.
* **C15** one direction + restricted iff proved (`_partial`), transitivity and iff refuted.
* **C16** refuted with a witness; holds on the restricted alphabet. Exact condition in `T_More.v`.
* **C17** decimal numerals proved; refuted for junk values.
* **C18** RT over all of u64/i64 by induction on decimal printing.
* **C19–C21** RT and characterisation by induction on the string (per-byte facts FIN).
* **C22** RT through the parser's state machine, for the legal-component predicate; refutations for '@'/'?' cases; `C22_exact`: among all URLs of UTF-8 components the round trip holds for those and no others (lengths, and where the delimiters can lie, case by case over `url_means`).
* **C23** by cases, component invariants through the state machine; the exact language by induction over the logins, segment by segment between '@' signs.
* **C24** computation on rendered absolute URLs.
* **C25–C27** bit-list specification of Huffman coding; the encoder's accumulator loop is related to the bit list by an invariant; decoding by induction on the message using prefix-freeness (FIN over the table).
* **C28** RT by strong induction on the value.
* **C29–C30** invariant over histories; REF to "longest fitting prefix of the insertion history".
* **C31** simulation relation between encoder table and decoder table, induction over the history; restricted to < 66 live dynamic entries and unconfusable names (`_partial`), refutations outside. The exact condition (`S_Near.v`): a rule for the sender's table after every field, and every repeated field among the newest 65 entries; iff for the last field of a block, and for all beginnings of a history (`T_Exactly.v`).
* **C32** refuted (size update), positive part: terminates if no size update.
* **C33** FIN; entry 15 refuted. Exact condition in `T_More.v`.
* **C34** RT over bit fields.
* **C35–C37** RT; C37 needs a base64 model.
* **C38** RT by strong induction on the payload length. PADDED pieces and the exact condition in `T_More.v`.
* **C39** RT each; PRIORITY refuted (length 0, exclusive bit dropped).
* **C40** simulation using C31; END_STREAM placement refuted.
* **C41** refuted (trailing padding kept) + what is kept. Exact condition against the RFC's meaning of the payload in `T_More.v`.
* **C42** refuted (DATA on stream 0) + partial: all other headers.
* **C43** by induction over the decoded list.
* **C44–C48** RT; canonicity by case analysis on the length forms.
* **C49–C52** induction on fragments; FIN flag not checked: refuted part of C52.
* **C53** FIN + injectivity by cases.
* **C54** REF to a finite function.
* **C55** RT composed of C22 and the header model; `C55_exact`: the pseudo fields give the URL back if and only if it is a plain one.
* **C56** computation + refutation (`Zauthority`); `C56_exact` in `T_Exactly.v`.
* **C57** induction on the number of calls.
* **C58** RT by induction.
* **C59** state invariance of re-parsing: the second parse depends on the text only; induction over attempts.
* **C60** exact flag after every call, by cases on the parser's exits.
* **C61** FIN over the registry; three codes refuted. Exact condition in `T_More.v`.
* **C62–C63** relation `rfc_block` (RFC 7541 representations as an inductive relation); decoder completeness and encoder soundness by induction on the block. `C62_exact` adds the converse: relation `block_read` (S_HpackAll) describes the accepted blocks as they are actually read, and the decoder succeeds exactly on them, with exactly that meaning. `C63_exact`: the encoder's block means the fields exactly under the conditions of C118.
* **C64** composition of C40 and C31 for blocks that fit one frame.
* **C65** case analysis over Frame::parse; two accessors refuted. All reports in `T_More.v`.
* **C66** bound by induction over the chunking loop; the exact bound refuted for every limit.
* **C67** wire form by computation over the two block encodings; receiver refuted.
* **C68** component-wise case analysis; laws by extensionality.
* **C69, C70, C77** builders as folds over call lists; "first failure / last value" specification proved by induction on the list; header part by refinement to C14's map.
* **C71** C37 composed with the header map and C76.
* **C72** substring specification of the scanner; list elements by induction on the split.
* **C73** two numeral parsers related through the digit-value specification. Exact condition for usize in `T_More.v`, for isize in `T_Exactly.v`.
* **C74** FIN over the registry, injectivity of hexadecimal printing.
* **C75** case analysis.
* **C76** C02 generalised to targets that need not be URLs; parser output invariants.
* **C78** equality of the two printers, by induction on the header. Exact condition in `T_More.v` from the exact length growth of lossy decoding.
* **C79** REF of C54.
* **C80** C55 composed with C76.
* **C81** induction over the messages, composing C03/C09 (head), C17 (length) and C12/C13 (chunks); prefixes by C05.
* **C82** induction over the items with the invariant "the two HPACK tables are in step for the fields still to come"; each item by C35-C40, C64.
* **C83** induction over the grammar of RFC 6455 5.4 in one direction, over the received frames in the other.
* **C84** a second model of the writing functions that keeps the count and what is in the buffer after a failure (`M_Write.v`); every function is proved to agree with the octet model, by induction over fields, settings, pieces and continuations.
* **C85** the write model returns the body or frame afterwards; induction over the pieces of DATA.
* **C86** be_enc/be_dec RT; injectivity of decimal printing; `N.compare` laws.
* **C87** exact effect of set_url, induction over the calls, then C03 and C70 for the receiver; names by C15.
* **C88** model with tagged names and values (M_Value); simulation of the tagged map by the map of bytes (M_Header) for every history, hence equal answers; the body length is the one query that depends on the storage and is characterised for each.
* **C89** setter calls as data, induction over the list of calls; flags bit by bit (`N.testbit`); the peer by C35, C38 and C64.
* **C90** a predicate "this result's error has a text" that is closed under `?`, applied to every function of the parsers; texts compared by cases.
* **C91** threads as programs of lock operations, loads and stores (`M_Share.v`); a schedule is a list of thread numbers. Simulation by runs of whole critical sections, with the invariant "readers and writers are counted by the lock, a thread outside it does not depend on the table"; the table by C30; well-foundedness of the steps that are not waits.
* **C92** a call run alone equals the sequential call, then C31 block by block; refutation by one schedule, for all orders of delivery.
* **C93** C31's invariant with one table on each side, by induction over the conversation.
* **C94** the tables against the classes of the RFCs, by going through all 256 octets inside the proof.
* **C95** text as Unicode scalar values, upper case with the rest of Unicode's table as a universally quantified function (`M_Text.v`); induction over the text.
* **C96** setters and mutable accessors as calls, an accessor with the function that the caller applies through it; per part, a fold of the changes (`M_Object.v`, `S_Object.v`); induction over the calls.
* **C97** a header map as its two tables (`M_Full.v`), calls on them in any order; the last value per key as a fold (`S_Full.v`); induction over the calls.
* **C98** a grammar of frames by type (`S_FrameAll.v`), header blocks by the grammar of C62; both directions from the exact lemmas per frame type, the header list by induction and by functionality of the readers.
* **C99** model of the conversions and constructors (`M_Small.v`), wire form of a message as opcode and payload (`S_Small.v`); the write path depends on the chunks only through their concatenation.
* **C100** the constants as a table beside the phrases; spelling rule in `S_Small.v`; tables by computation, the rest for all codes from the lemmas of C10.
* **C101** constructors in `M_Small.v`; octets by the lemmas of C34 and C39; the preface as octets written out from the RFC.
* **C102** grammar of the refused inputs with their errors (`S_Refuse.v`), beside that of C98; one equivalence per layer (integer, string, field, block, header list, payload, frame) by the inductions of C75 and C98.
* **C103** grammar of the refused heads, URLs and chunks with their errors (`S_Reject.v`), beside those of C02, C23 and C13; one equivalence per word, line, field, URL component and head; completeness and exclusiveness follow because the readers always return.
* **C104** grammar of the refused WebSocket headers, frames and frame sequences (`S_WsAll.v`); equivalences by cases on the length field, then on the header; a continuation is built for every incomplete frame that is not in `never_frame`.
* **C105** the readers again, with the buffer followed through failures (`M_Cursor.v`), proved to agree with the readers of the other model files; a grammar of the octets left (`S_Cursor.v`); equivalences from those of C102-C104 by running the reader on every case of the grammar; the decoder of header blocks by induction over its rounds.
* **C106** sizes of what the grammars of C23, C62, C98, C102-C104 relate (`S_Bound.v`), by induction over them: every code word has five bits or more, every broken piece of text an octet or more, every field of a block an octet or more; the worst block is given and its result computed by the grammar for all lengths.
* **C107** grammars of what is written (`S_WriteAll.v`): heads, WebSocket frames, header fields with the choice among the five representations, pieces of header blocks, all nine kinds of frames. The model runs along the grammar for every object (existence), and the grammar names one outcome only (shortest integers and Huffman codes are unique, static entries distinct, the first match unique), so the two agree in both directions.
* **C108** the grammar of RFC 9112/9110/3986 as its own specification (`S_Rfc9112.v`). Every sentence of it lies in the accepted language of C02/C08 with the raw text behind the colon as value; the header map equals the meant fields exactly on plain lines with distinct names; targets by the exact meaning of URL texts (C23) with unique cuts at ':' '/' '?'.
* **C109** the accepted language cut uniquely at the first CR of every line and at the spaces of the start line, and compared with the grammar part by part.
* **C110** the frames of RFC 9113 as a relation of their own (`S_Rfc9113.v`), compared with the grammar of the reader (C98) kind by kind; header lists by the values of their pseudo headers and the names of the map; padding by showing that zeros behind a block are read as fields without a name or not at all.
* **C111** frames and conversations of RFC 6455 as relations of their own (`S_Rfc6455.v`) over opcodes as numbers, related to the exact receiver of C83 and to the exact frame reader of C45/C47; frames are determined by their octets, the masking key included.
* **C112** chunked bodies of RFC 9112 section 7.1 as records with their text (`S_RfcBody.v`), read by the client's loop of C12; the accepted bodies as an inductive relation from the exact size line of C13, then induction over the chunks; hexadecimal prefixes are unique.
* **C113** requests of RFC 9112 as records with head and body (`S_RfcMessage.v`), the body's framing from the fields as section 6.3 says; C108 for the head, C112 for chunked bodies, C17 for lengths; whatever is read without the chunked coding is a prefix of the octets, and a chunked text is longer than its content.
* **C114** responses of RFC 9112 as records with the method that they answer (`S_RfcReply.v`), the five cases of section 6.3; for each, whether res_nobody, the word chunked and the length lead to the same octets; the lemmas of C113 on chunked texts and prefixes, and that what is read of a conforming response is its head.
* **C115** requests, CONNECTs and responses of RFC 9113 section 8.3 as records and as lists of fields (`S_RfcMeans.v`); what the frame collects of them (C110), the text that build_url glues and the URL that it parses to (C25, C93), the map that the builder makes; malformed lists as an inductive predicate, disjoint from the conforming ones.
* **C116** URIs as records of seven texts of the grammar of RFC 3986 and what they mean (`S_Rfc3986.v`); the exact grammar of C25/C93 gives the parse of every text, uniqueness of the cuts at '://', '@', ':', '/' and '?' gives the components.
* **C117** the grammar of C108 and C113/C114 read as a sender's obligation (`S_RfcSend.v`): the octets are a conforming message with the meaning of the object; C107 gives the octets, and a target is never shorter than the path that it means, which makes the cut of the octets into lines unique.
* **C118** the frames of C110 read as a sender's obligation (`S_RfcFrames.v`): C107 gives the octets; frame headers cut the octets in one way only, and so do HPACK fields, so that a header block means one list of fields at most, and it is the right one exactly if every field is.
* **C119** the conversations of C111 read as a sender's obligation (`S_RfcTalk.v`): C107 gives the octets; a frame's octets determine its bits, opcode, key and payload and where it ends, so that octets are the frames of one list only; frames carry one list of messages at most.
* **C120** the messages of C115 read as a sender's obligation (`S_RfcAsk.v`): insertion behind the pseudo header fields keeps all of them only if no names compare equal (by the length of the list); what is decoded from an escaped text is not longer than the text, so that a host or path that is written as it is means itself only without escapes; C118 gives the octets, and that they mean one list.
* **C121** the dual of C116 (`S_RfcShow.v`): the text is compared part by part with the one any reading gives; an escaped text that starts with another one which means the same is that one (`pct_no_more`), and the first delimiter ends its part, so that no other Url is shown. Uniqueness: the grammar is cut at the first character of a set (`split_first`).
* **C122** composes reading (C113, C114, C115) with writing (C117): what was read is known exactly, what is written is compared with every conforming message by its first blank and its field lines, so that the conditions are necessary. That a sent message is two is shown with two conforming messages whose texts make it up.
* **C123** composes reading (C113, C114, C115) with sending (C120): the number of fields that arrive tells that no name clashed, and the four pseudo header fields are then compared one by one with those of every conforming request. That something is malformed is shown by one of the reasons that `malformed` (C115) lists.
* **C124** composes reading (C110) with writing (C118) for single frames; the frame that is meant is the same object in both specifications, so that the conditions of C118 are decided from the octets that were received.
* **C125** composes receiving (C111) with writing (C119): by induction over the talk, the messages received are values that the types allow, with control payloads of at most 125 octets, so that writing cannot fail; the conditions of C119 are then the equivalence. Frame by frame, the frames written are those read but for the keys, and what frames tell does not depend on keys.
* **C126** composes parsing (C116) with showing (C121) and with parsing again (C22): that a URI is parsed as meant fixes every part of the URL by the texts that its parts say, so that the conditions on the URL become conditions on the URI.
* **C127** blocks with marks are the blocks of C62 with the first octet of every field looked at; where a field ends does not depend on tables, so that the fields written (C107) are the only way to read the octets, and their first octets are 64 or more.
* **C128** the loop of C112 followed by the writer of C12; a hexadecimal numeral in small letters without zeros in front is the only one of its value, by induction on its digits from the end, so that the octets are the same exactly for such sizes.
* **C129** what is sent on for frames that tell a list of items is again a list of items with the same header lists, whose frames tell the first list (pieces of pieces of data are pieces); induction on the connections with C82, and reading to the end of the octets is deterministic.
* **C130** what C81 delivers for a request with a plain target is again such a request, and a fixed point: sending it on gives it back; induction on the relays. The converse is that of C03: a received path that is not plain becomes shorter.
* **C131** octets that tell messages are those of one sequence of frames (prefix-freeness of frames, C119); what is written by C125 is again such a sequence, with the same messages; induction on the intermediaries. Single frames: the round trip of C47 for each.
* **C132** one step over HTTP/1 gives a ready message back (C130); one over HTTP/2 gives it with the Host field first and names in lower case (C120, C123), which is again ready and a fixed point of both steps, with the same size of the list; induction on the row.
* **C133** remove_dot_segments is the identity on paths without dot segments, and makes all others shorter, escapes resolved (induction on its loop, invariant on both buffers); with the readings of C116 and C108 this decides for each component of the merged URL whether it is the resolved one.
* **C134** a reader is steady if whatever it answers other than "wait" stays the answer when octets follow; for a steady reader the receiver's loop depends on the concatenation only (induction on the packets and on the octets kept). HTTP/1 heads and bodies, WebSocket frames and HTTP/2 frames are shown to be steady.
* **C135** for a steady reader (C134) that reads all of w, every prefix leaves the connection open with a beginning delivered, and a complete delivery with octets missing would make the rest empty; the whole is read by C81-C83. The WebSocket receiver of messages is steady because its frames are.
* **C136** the table of constants is modelled row by row; a name that two constants find would make them agree up to distances 0, 32 and 64 at every octet, which no pair does (checked over all pairs); independence follows by induction on the map and on the calls.
* **C137** for a steady reader (C134) a connection is closed with e exactly if it delivers some items and the next attempt answers e (induction on the octets left); with the exact conditions for the content-length (C17), the chunk size (C29) and a frame (C102), carried along the chunks of a body and the history of the decoder.
* **C138** what is kept by a steady reader (C134) is a text on which it waits, and every prefix of one is another; so each bound is the length of the longest text on which the reader waits, from the exact description of refused headers and frames (C104) and of frame headers (C34); for HTTP/1 prefixes of heads with a long field value (C02, C05).
* **C139** a steady reader (C134) that never waits on the very octets of a message it would give needs nothing behind them; induction on the octets left gives the division, and steadiness that no text is a beginning of another. That the readers are such follows from the exact descriptions of heads, chunks and frames.
* **C140** a schedule is an interleaving, defined inductively by taking the first item of any stream; induction on it shows that filtering the schedule by a stream gives that stream back, and that its fields keep both tables in step (C31); the rest is C135 and C82 on the filtered list.

## 5. Disagreements between the code and what a user expects

Each item is a theorem named `…_refuted` (the property id is in brackets).

HTTP/1
* A query is never written by `http1_data`, a `%` in the path is decoded twice, CONNECT does not round-trip [C03].
* Heads that stay Partial for ever: a byte other than CR, LF or space where a line break is expected (behind the version, the reason, or an empty header value), and complete heads whose target is an unfinished URL such as `/%4` [C08, exactly these].
* Codes without a canonical reason cannot be serialised; an empty reason phrase is rejected [C09]; phrases of 103, 203, 425 [C61].
* A chunk size line of 2^64 - 2 or more panics [C13].
* `is_partial()` can disagree with the returned error [C60]; a built request calls itself partial [C70].
* Escaped line breaks in a path or in a built URL's host become header fields for the next receiver [C70, C76].
* A head that cannot be written leaves its beginning in the caller's buffer [C84]. A second `set_url` leaves the Host field of the first; `get_host` keeps the port of `:authority`, although the code means to cut it off [C87]. `Content-Length: +5` means 5 if it was given as a literal and 0 otherwise [C88].
* `keep-alive` in lower case is not recognised, `not-chunked` is [C72].
* `Content-Length: 0--5` is -5; 2^63 panics; isize::MIN does not round-trip; `+5` differs between the two value representations [C17, C18, C73].
* Status codes without a phrase are displayed but not serialised; Display loses non-UTF-8 values [C78]. Cloning drops extensions [C79].

Header names
* The comparison equates non-letters 32 apart (`-`/`M`, `1`/`Q`, `^`/`~`): not transitive, not compatible with Hash, and aliases such as `ContentMLength` or `Zauthority` [C15, C16, C17, C56].

URL
* Display then parse fails for components with `@` or `?` [C22]; `http://good.example/a/@evil.example` has domain evil.example, `http://good.example/a?to=x@y` none, and of several logins only the last is looked at [C23]; a URL merged over another keeps its credentials, path and query [C68].

HPACK
* A size-update octet makes the decoder loop [C32, C42]; entry 15 is `accept-` [C33, C62, C63]; whole-field indices from 127 on are misread [C31, C62]; EOS is decoded as byte 0 [C27]; the dynamic table search confuses names as above [C31].
* `"http".parse::<Scheme>()` is `Extension("HTTP")`: no known scheme is ever read by `str::parse` [C95]. `"po\u{fb06}".parse::<Method>()` is POST [C95]. Three character classes differ from their documentation; `to_hex` is public and panics from 16 on [C94].
* `Response::from_parts(r.into_parts())` and `Request::new_by_parts` forget that a head was incomplete [C96]. `Builder::from_req` takes over no header field, not even Host, which `url()` would have set [C70].
* `HeaderMap::clear`, and with it parsing into a used message, leaves the entries of `system_insert`; `==` of header maps is not transitive [C97].
* A PUSH_PROMISE of fewer than four octets is read as promising stream 0, and unknown pseudo headers such as `:x` become ordinary fields [C98].
* A `Message` whose public fields are set by hand (a ping with a status code, a close without code but with a payload) loses that part when converted to `OwnedMessage` [C99].
* The HTTP/2 preface constant is used nowhere: a server must strip it itself; given to the request parser it is a method error, given to the frame reader a bad flag [C101].
* A field whose name is in the static table but whose value is not (`:authority: a`) is added to the dynamic table every time it is sent, so other fields move away from the front; the same block of two fields fails to arrive the 66th time at the default table size [C31].
* A header list over the limit is reported as `HeaderIndexOutOfBounds`, the error for an unknown table index [C102].
* Every defect of Huffman code is reported as `PaddingTooLarge`, also padding bits that are not ones; `InvalidPadding` and `EOSInString` are never given [C102].
* A wrong length is `BadFrameSize` for PING, GOAWAY and WINDOW_UPDATE but `InvalidPayloadLength` for PRIORITY, RST_STREAM and SETTINGS; CONTINUATION and unknown types are `Extension("")` [C102].
* After an error in a header block the decoder's table keeps the fields before it, so the connection's state is ahead of the sender's acknowledged frames; RFC 9113 4.3 has the connection closed, which the crate leaves to the caller [C102].
* A request whose target or Host field is refused has the method, version and fields of the new head, the URL of the old one, and `is_partial` answers no [C103].
* `HttpError::HeaderValue` is never given: any octet but CR may stand in a header value; and `UrlCodeInvalid` is never given by `Url::parse` [C103].
* A bracketed IPv6 address in `Host` is refused with `IntoError`, and a port that is no number with `Extension("parse int error")`: the same defect in an absolute target is `UrlInvalid` [C103].
* An escape cut short by the end of its component (`http://a%4/b`) is `Partial`, so the caller waits although the URL is complete [C103].
* The WebSocket reader asks for more octets for a control frame that is already known to be illegal (first octet `0x09`, or `0x89 0x7E`), and for an eight-octet length that starts with six zero octets; no continuation is accepted [C104].
* A close frame of one octet is reported as an unexpected end of input, the error that elsewhere means "read more" [C104].
* `parse_buffer` of requests and responses takes octets from the caller's buffer before it knows that the head is complete. When it asks for more, all finished words are gone; a caller that calls again with the same buffer and the octets that came since reads the rest of the old head as a new one. If the network cuts `GET /safe ...\r\nNote: DELETE /admin HTTP/1.1\r\nHost: b\r\n\r\n` behind `Note: `, the program sees the request `DELETE /admin` [C105].
* The WebSocket reader does the same: the payload of a frame whose header came alone is read as the next frame, so a text can contain a ping [C105].
* `FrameHeader::parse` with undefined flags stops in the middle of the header: the stream identifier stays in the buffer [C105].
* The reader of header blocks keeps a field that is not complete as a whole; a second call goes on there [C105].
* `Headers::parse` decodes the complete header list before it compares its size with the limit of the connection. A block that stores one field of 4064 octets and names it again in one octet each is turned into 4064 octets for each octet: a frame of 16384 octets makes 50 million, the largest frame 68 thousand million, whatever the limit [C106].
* The length field of an HTTP/2 frame is the low 24 bits of the length and nothing checks it against the frame size: GOAWAY with 16777208 octets of debug data announces 0 octets, and the peer takes what follows for frames [C107].
* The HPACK encoder never uses the dynamic table for a name of the static table, also when it holds the field: `:path: /x` sent twice is written twice and stored twice [C107].
* Conforming HTTP/1 heads are refused or misread: methods beyond nine, `OPTIONS *`, '@' in a path or query, escapes that are not UTF-8, IPv6 hosts, an empty port, HTTP/1.2, an empty reason, and a reason with other than visible ASCII; a tab behind the colon and blanks behind a value become part of the value [C108].
* Heads that RFC 9112 has refused are accepted: a space in front of a colon, LF, NUL and other controls in a value, a single LF or a single space for CRLF, several spaces, `HTTP/2` and `HTTP/3` as version words [C109].
* Conforming HTTP/2 frames are refused or misread: every frame with a flag bit that has no meaning, every frame of an unknown type, every frame with padding (the padding stays in the data and, behind a header block, is read as fields), extension methods, a status below 100 and repeated fields [C110].
* Frames that RFC 9113 has refused are accepted: HEADERS, PRIORITY and RST_STREAM on stream 0, GOAWAY on another stream, PRIORITY with a longer payload, one octet too many in any frame with the flag PADDED [C110].
* The WebSocket readers ignore their argument should_be_masked (masked and unmasked frames mix), take lengths up to 2^64-1, any close code including 0 and the reserved ones, and data after a close [C111].
* Chunk extensions are refused; a blank before one ends the size line, so that the extension is taken as data; trailer fields are not recognised and stay in front of the next message, without their first two octets; any two octets may follow a block [C112].
* `Transfer-Encoding: Chunked` is not recognised: the Content-Length is used, or no body is read, and the body is taken for further requests (request smuggling); other final codings that contain the word are taken for chunked; a Content-Length that is not a numeral counts as 0 [C113].
* `res_nobody` looks at the method only: a 304 or 204 with a Content-Length swallows octets of the next response, the body of an answer to OPTIONS and of a refused CONNECT is left over and read as a response; bodies until close have no length at all; `is_nobody` denies the bodies of GET requests that the RFC allows [C114].
* HTTP/2 targets are glued together and parsed again: a conforming request with authority good.com and path /a@evil.com becomes a request to evil.com, a path without '/' becomes the end of the host, OPTIONS * to a becomes a request to host "a*"; a host field that differs from :authority is kept beside it; malformed lists (upper case, repeated, late, missing or unknown pseudo header fields, Transfer-Encoding, CR LF in values) are taken for requests; every request says HTTP/1.1 [C115].
* Fragments are not cut off but stay in the path, query or host; a user without a password, an IPv6 host and an empty port are refused; HTTP:// in upper case is another scheme; http://h?8 goes to port 8; http://h/a@b goes to host b [C116].
* http1_data writes the path instead of the authority for CONNECT, drops the query, does not escape the path, does not chunk the body of a message that says Transfer-Encoding: chunked, and writes HTTP/2 objects in the HTTP/1 format with version HTTP/2; httpdata writes a body behind 204 [C117].
* A header block in several frames has END_STREAM on the last CONTINUATION, where RFC 9113 does not define it, and not on HEADERS; whether a field begins a new frame is decided with the length of its text, so that a field of 5001 octets makes a frame longer than 16384; the parts and the priority of a HEADERS object are not written; no PRIORITY and no PUSH_PROMISE frame that is written conforms; DATA with set_padded has the flag but no padding length [C118].
* `write_to` knows neither the side that it writes for nor what was written before: reserved bits and opcodes, unfinished control frames, close codes such as 1005, data after a close, client frames without and server frames with a mask are written; a `Message` of type text with a status code has the code's two octets in front of the text [C119].
* An HTTP/2 request loses the query, the port and the user of its URL; a request of the builder has a Host field with the port, which differs from `:authority`; `encode_header` on the header map of a request puts the pseudo header fields last, which RFC 9113 calls malformed; CONNECT is never sent as RFC 9113 8.5 wants it; a field named Zpath or Zauthority takes the place of `:path` or `:authority` ('Z' and ':' compare equal), so that whoever sends an HTTP/1 request through a proxy chooses the target of the HTTP/2 request [C120].
* Display escapes none of ':', '@', '/' and '?', wherever they stand: a Url with the user `evil/x` on the host `good` shows `http://evil/x:y@good/`, which is a URL of the host `evil`; '?' in a path becomes a query, a user without a password one with an empty password, and an escape in a host is read as one [C121].
* A proxy made with the crate lets requests be smuggled: a chunked request is sent on with Transfer-Encoding but without the chunks, the escapes of a path are sent resolved (a line end among them), and an HTTP/2 request with content but no content-length is sent with nothing that tells where it ends; each becomes two requests. A proxy request for one host is sent on with the Host field of another, and the query is dropped [C122].
* A response with a code that has no phrase (103, 425, 299, ...) is read, but cannot be written [C122].
* A proxy made with the crate that sends HTTP/2 gets most things wrong: a request that came without a host field is given one with the port, which :authority does not have, so it is malformed; so is any HTTP/1 request whose Host has a port, and any with Connection, Transfer-Encoding, Upgrade or Keep-Alive, which are not removed. An HTTP/1 request with the fields Zpath and Zauthority is sent on to the path and the host that they name [C123].
* A DATA frame that came with the flag PADDED is sent on with the flag and without the octet that tells the padding, so that the data is cut by what its first octet says; HEADERS frames of requests and responses are sent on without the pseudo header fields [C124].
* Close codes that RFC 6455 forbids to send (below 1000, 1005, 1006, 1015, from 5000 on) and data after a close are received and, written again, passed on [C125].
* Escapes are undone by parsing and not made again by showing, so that hosts change: `http://good/%40evil` is shown as `http://good/@evil`, which the crate parses to the host `evil`; `http://evil%2Fx:y@good/` is shown as a URL of the host `evil`, and so is `http://evil%2F.good/` [C126].
* Fields that the sender marked as never to be indexed (RFC 7541 6.2.3, 7.1.3: credentials) are received like others, and, encoded again, stored in the tables of the encoder and of the next hop; the encoder has no way to mark a field [C127].
* A conforming chunked request with a trailer field such as `X:GET /admin HTTP/1.1` is read as two requests, because the trailer section is taken for the next message from its third octet on (request smuggling) [C128].
* Each relay resolves the escapes of a path once more: `/%2525252e` asks for `/.` behind the third; after `/a%20b` the request is not readable behind the first, since the blank is written as it is [C130].
* A request with `contentMlength: 32` has a content of 32 octets over HTTP/1; sent on over HTTP/2 the name is written in lower case and is no length any more, so that a gateway back to HTTP/1 writes octets that are read as two requests (request smuggling) [C132].
* `Url::merge` is not reference resolution: a redirect from `http://h/reset?token=1` to `http://other/welcome` leads to `http://other/welcome?token=1`; `//other/x` is a path at the old host; relative references are not read [C133].
* Each of the named constants with a hyphen also finds a field of another name, with `M` for `-` (`ContentMType` for CONTENT_TYPE); no field is found by two constants [C136].
* On a whole connection one message with content-length 9223372036854775808, one chunk size ffffffffffffffff, or one DATA frame on stream 0 makes the receiver panic, and one HEADERS frame that ends in a table update makes it loop; nothing else does, and a WebSocket receiver is never stopped [C137].
* Nothing in the library bounds the head of an HTTP/1 message, and the limit of the WebSocket reader bounds frames, not messages: a peer can make a receiver hold any number of octets. HTTP/2 frames of up to 2^24-1 octets are waited for whatever was announced [C138].
* Whether a response on an HTTP/2 stream arrives depends on what other streams send in between: with the default table, 40 small fields on another stream between an interim and a final response push the index of a field of the first one beyond 126, where the decoder misreads it, and the connection ends (C140_default_table_refuted).
* A table shared by threads stays in order, but blocks encoded at the same time are not readable in any order [C92]; one table for both directions works only while the endpoints take turns, and not with a peer that follows RFC 7541 [C93]; the callback of `decode_with_cb` runs under the read guard, so that using the table in it can wait for itself [C91].

HTTP/2
* PRIORITY is written with length 0 and without its exclusive bit [C39]; END_STREAM goes to the last CONTINUATION and CONTINUATION cannot be parsed [C40]; padding stays in the payload [C41]; DATA on stream 0 panics [C42]; DATA with maximum size 0 loops [C38]; SETTINGS ACK with values [C35].
* PRIORITY's stream id and PING's ACK are not reported [C65]; frames exceed max_frame_size [C66]; PUSH_PROMISE's header block is ignored by the receiver, whose table gets out of step [C67].
* Port, user info and query are dropped from requests [C55]; stream ids of 2^31 and more [C57]; repeated fields [C64].
* Pseudo fields set on a HEADERS frame are not sent, PUSH_PROMISE has no way to set a scheme [C89]; HTTP/2 errors are displayed as the empty text [C90].
* `Serialize for Frame` writes nothing and reports success [C84]; encoding DATA larger than the frame size uses up its payload [C85]; `ErrorCode::parse` always gives 0 [C86].
* `validate_request` accepts bodies and refuses their absence [C75]; CR LF in a received field becomes a field when forwarded to HTTP/1 [C80].

WebSocket
* `write_to` returns 0 whatever it wrote [C84]; protocol errors are displayed as the empty text [C90].
* A control header without FIN is written and refused on reading [C44]; `from_dataframes` checks no FIN flag and accepts fragmented control messages [C52].

## 6. Print Assumptions

Every theorem in `T_*.v` is followed by `Print Assumptions`; each prints
"Closed under the global context", i.e. no axiom, neither of our own nor of the standard library.
(`coqchk -o` on the whole development also lists the seven constants
`Coq.ssr.ssrunder.Under_rel.*`: they are the fields of a module in the standard
library's prelude, loaded with every Coq file, and no theorem here depends on them.)

Debug builds: arithmetic overflow and `debug_assert!` are modelled as `Panic`, as in a debug build.

## 7. Coverage

| model file | source |
|---|---|
| `M_Std.v` | integer printing and parsing, base64 (external, from their documentation) |
| `M_Helper.v` | `helper.rs`, `macros.rs`, tables of `url/scheme.rs` |
| `M_Header.v` | `http/name.rs`, `http/value.rs`, `http/header.rs` |
| `M_Url.v` | `url/*.rs` |
| `M_Http1.v` | `http/method.rs`, `version.rs`, `status.rs`, `request.rs`, `response.rs` (parsing and serialising) |
| `M_Build.v` | the builders, Display, Clone/replace_clone/into, `frame/reason.rs`, `validate_request` |
| `M_Huffman.v`, `M_Hpack.v` | `http2/hpack/*.rs` |
| `M_Frame.v`, `M_H2.v` | `http2/frame/*.rs`, `http2/mod.rs` |
| `M_Ws.v` | `ws/*.rs` |
| `M_Write.v` | `serialize.rs`, and the counts and partial output of the writing functions of all the above |
| `M_Ext.v` | `extensions.rs` |
| `M_Names.v` | `http/name.rs`: the table of named fields, `from_bytes` |
| `M_Value.v` | `http/name.rs`, `http/value.rs` with their storage |
| `M_Text.v` | `http/method.rs`, `url/scheme.rs` (`FromStr`), predicates of `http/version.rs` and `url/scheme.rs`, `url/url.rs` 404-415 |
| `M_Object.v` | `http/request.rs`, `http/response.rs`: setters, mutable accessors, conversions, the response builder with extensions |
| `M_Full.v` | `http/header.rs`: a header map with the entries of `system_insert`, its equality, clone, Display and iteration |
| `M_Small.v` | ws/message.rs message_size, From<String>, From<Vec<u8>>, CloseData::normal/new; status.rs constants, Default, PartialEq, build_header; constructors of http2/frame/{ping,go_away,reset,window_update,priority}.rs; frame/mod.rs first identifiers, Ord, Display, read_u64 |
| `M_Cursor.v` | the readers of `helper.rs`, `request.rs`, `response.rs`, `scheme.rs`, `ws/`, `frame.rs` (header) and `decoder.rs` with the buffer that is left after a failure; assumption: `try_get_*` of the buffer crate checks the length before it takes anything |
| `M_Share.v` | `http2/hpack/*.rs` with the lock of the shared table |
| `M_Access.v` | setters and getters of `http2/frame/*.rs`, `error.rs` and the other `error.rs` texts |

Not modelled: plain field accessors of requests, responses and URLs, `Debug`
texts other than `Reason`'s, `examples/`, and the representation-only
distinctions named in section 2.
`HeaderMap::get_body_len` is modelled for the owned representation of the value (C17); the literal one is compared in C73.
