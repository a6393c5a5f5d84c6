{"id": "C01", "title": "HTTP/1 header block round-trip", "statement": "Writing a header list with HeaderMap::encode and reading it back with the HTTP/1 header parser yields exactly the same list of (name, value) pairs in the same order, and leaves every byte after the blank line untouched.", "quantifier": "every list of headers whose names are non-empty RFC 7230 tokens and pairwise different, whose values contain no CR and do not begin with a space, and every trailing byte string", "why_tests_cant": "The list length, the name/value lengths and the bytes that follow are unbounded; a test fixes all three.", "anchors": ["src/http/header.rs: HeaderMap::encode", "src/helper.rs: Helper::parse_header", "src/helper.rs: Helper::skip_new_line"]}
{"id": "C02", "title": "HTTP/1 request head parses to what is on the wire", "statement": "Request::parse_buffer on a well formed head `METHOD SP target SP VERSION CRLF (name: value CRLF)* CRLF` followed by any bytes succeeds, reports exactly the length of that head as consumed, and yields that method, version and header list and the URL that Url::parse gives for the target.", "quantifier": "every one of the nine methods, the four accepted versions, every visible-ASCII target, every legal header list without a Host header or pseudo header, every trailing body", "why_tests_cant": "Needs to hold for every target, header list and pipelined remainder.", "anchors": ["src/http/request.rs: Request::parse_buffer", "src/http/request.rs: Request::parse", "src/helper.rs: parse_method, parse_version, parse_header"]}
{"id": "C03", "title": "HTTP/1 request head serialise/parse round-trip", "statement": "Serialising a request head and parsing the bytes back yields the same method, version, path, query and headers.", "quantifier": "every request with a legal method, version, URL and header list", "why_tests_cant": "The URL path and query range over all strings; the loss only shows for some of them.", "anchors": ["src/http/request.rs: Request::encode_header", "src/http/request.rs: Request::http1_data", "src/http/request.rs: Request::parse_buffer"]}
{"id": "C04", "title": "Feeding more bytes never changes a finished HTTP/1 verdict", "statement": "If parsing a byte string as a request head, a response head or a header block gives any verdict other than Partial (success, or a definite error), then parsing the same bytes followed by any further bytes gives the same verdict and the same consumed count.", "quantifier": "every byte string and every continuation", "why_tests_cant": "Quantifies over all pairs of prefix and continuation (every way a TCP stream can be segmented).", "anchors": ["src/http/request.rs: Request::parse_buffer", "src/http/response.rs: Response::parse_buffer", "src/helper.rs: Helper::*", "src/error.rs: WebError::is_partial"]}
{"id": "C05", "title": "Every strict prefix of a complete HTTP/1 head is reported Partial", "statement": "If a request (response) head parses successfully consuming n bytes, then parsing any strict prefix of those n bytes reports Partial, never success and never a definite error.", "quantifier": "every byte string that parses successfully and every strict prefix of the consumed part", "why_tests_cant": "Quantifies over all messages and all segmentation points.", "anchors": ["src/http/request.rs: Request::parse_buffer", "src/http/response.rs: Response::parse_buffer", "src/error.rs: WebError::is_partial"]}
{"id": "C06", "title": "Consumed count of the HTTP/1 parsers is exact", "statement": "On success the reported consumed count n is at most the input length and the result depends only on the first n bytes: replacing everything after them leaves result and count unchanged.", "quantifier": "every input accepted by Request::parse_buffer / Response::parse_buffer and every replacement tail", "why_tests_cant": "Tail and head are arbitrary byte strings.", "anchors": ["src/http/request.rs: Request::parse_buffer", "src/http/response.rs: Response::parse_buffer"]}
{"id": "C07", "title": "HTTP/1 head parsing is total", "statement": "Request::parse_buffer and Response::parse_buffer return a value (success or an error) for every byte string; they never panic and never loop.", "quantifier": "every byte string", "why_tests_cant": "All inputs, of all lengths.", "anchors": ["src/http/request.rs: Request::parse_buffer", "src/http/response.rs: Response::parse_buffer", "src/helper.rs"]}
{"id": "C08", "title": "Partial is only reported when more bytes could help", "statement": "When the HTTP/1 head parser reports Partial there is a continuation for which it no longer reports Partial.", "quantifier": "every byte string reported Partial and all its continuations", "why_tests_cant": "Showing that no continuation helps needs a statement about infinitely many strings.", "anchors": ["src/helper.rs: Helper::skip_new_line", "src/helper.rs: Helper::parse_token_by_func_empty", "src/http/request.rs: Request::parse_buffer"]}
{"id": "C09", "title": "HTTP/1 response head serialise/parse round-trip", "statement": "Serialising a response head and parsing the bytes back yields the same version, status code and headers and consumes exactly the serialised bytes.", "quantifier": "every status code, HTTP version and legal header list, and every trailing body", "why_tests_cant": "Ranges over all status codes, header lists and bodies.", "anchors": ["src/http/response.rs: Response::encode_header", "src/http/response.rs: Response::parse_buffer", "src/http/status.rs: StatusCode::encode"]}
{"id": "C10", "title": "Status codes: numeric and textual forms agree", "statement": "StatusCode::from_u16 accepts exactly 100..=999; StatusCode::from_bytes accepts exactly the three-digit decimal strings of those codes and returns that code; as_str prints the code so that from_bytes(as_str(c)) = c; and each code belongs to at most one of the five classes, and to exactly one iff it is below 600.", "quantifier": "every u16 and every byte string", "why_tests_cant": "All byte strings are candidates for parsing.", "anchors": ["src/http/status.rs: StatusCode::from_u16, from_bytes, as_str, is_informational, is_success, is_redirection, is_client_error, is_server_error"]}
{"id": "C11", "title": "Methods and versions round-trip and nothing else is accepted", "statement": "Method::try_from accepts exactly the nine upper-case names and as_str gives the accepted name back; the version parser accepts exactly HTTP/1.0, HTTP/1.1, HTTP/2, HTTP/3 and as_str/encode gives the same text back.", "quantifier": "every string", "why_tests_cant": "All strings are candidates.", "anchors": ["src/http/method.rs: Method::try_from, as_str, encode", "src/http/version.rs: Version::as_str, encode", "src/helper.rs: parse_version, parse_method"]}
{"id": "C12", "title": "Chunked encoding round-trip", "statement": "For any sequence of data blocks, encoding each block with encode_chunk_data, concatenating, and repeatedly decoding with parse_chunk_data (taking the reported number of bytes and skipping the trailing CRLF) gives back exactly the sequence of blocks and stops at the terminating empty chunk.", "quantifier": "every list of byte strings and every trailing data", "why_tests_cant": "Block contents, lengths and count are unbounded.", "anchors": ["src/helper.rs: Helper::encode_chunk_data, Helper::parse_chunk_data"]}
{"id": "C13", "title": "Chunk decoding is total and prefix-safe", "statement": "parse_chunk_data never panics on any bytes received from the network, and every strict prefix of an encoded chunk is reported Partial.", "quantifier": "every byte string; every chunk and every strict prefix of it", "why_tests_cant": "The crash only happens for size lines denoting at least 2^64 - 2.", "anchors": ["src/helper.rs: Helper::parse_chunk_data"]}
{"id": "C14", "title": "HeaderMap behaves as an ordered case-insensitive map", "statement": "For any history of insert, push, remove and clear calls the observable state (lookup by name, membership, iteration order) equals that of an abstract association list keyed by ASCII-case-folded names: insert replaces the value of an existing header in place or appends, remove deletes and returns the value, lookups ignore case.", "quantifier": "every sequence of operations and every value, and every set of header names on which name equality is ordinary case-insensitive equality (see C15 for the names where it is not)", "why_tests_cant": "Quantifies over all operation histories.", "anchors": ["src/http/header.rs: HeaderMap::insert, push, remove, get_option_value, contains, clear", "src/helper.rs: eq_bytes_ignore_ascii_case"]}
{"id": "C15", "title": "Header names are compared ASCII case-insensitively", "statement": "Two header names are equal iff they are equal after mapping A-Z to a-z; in particular the comparison is an equivalence relation.", "quantifier": "every pair (triple) of header names made of RFC 7230 token characters", "why_tests_cant": "All pairs of names of all lengths; the violating pairs are rare.", "anchors": ["src/helper.rs: Helper::eq_bytes_ignore_ascii_case", "src/http/name.rs: PartialEq for HeaderName"]}
{"id": "C16", "title": "Equal header names hash equally", "statement": "If two header names compare equal then they feed the same bytes to the hasher (the contract HashMap keys must satisfy, on which the HPACK static lookup relies).", "quantifier": "every pair of header names", "why_tests_cant": "All pairs of names.", "anchors": ["src/http/name.rs: Hash for HeaderName, PartialEq for HeaderName", "src/http/http2/hpack/header_index.rs: STATIC_HASH"]}
{"id": "C17", "title": "Body length follows Content-Length", "statement": "get_body_len returns n exactly when the message has a Content-Length header whose value is the decimal numeral of n; values that are not decimal numerals are not treated as lengths and never crash.", "quantifier": "every header list and header value", "why_tests_cant": "All byte strings as values, including ones just below and above 2^63/2^64.", "anchors": ["src/http/header.rs: HeaderMap::get_body_len", "src/http/value.rs: TryInto<isize>/TryInto<usize> for &HeaderValue"]}
{"id": "C18", "title": "Integers round-trip through header values", "statement": "Converting a usize (isize) to a HeaderValue and back gives the same integer.", "quantifier": "every usize and every isize", "why_tests_cant": "2^64 values.", "anchors": ["src/http/value.rs: TryFrom<usize>, TryFrom<isize>, TryInto<usize>, TryInto<isize>"]}
{"id": "C19", "title": "Percent-encoding round-trip", "statement": "Url::url_decode(Url::url_encode(s)) = s.", "quantifier": "every UTF-8 string s", "why_tests_cant": "All strings.", "anchors": ["src/url/url.rs: Url::url_encode, Url::url_decode"]}
{"id": "C20", "title": "Percent-encoding output is URL-safe", "statement": "Every byte of Url::url_encode(s) is an unreserved/structural URL character or part of a %XX triplet with two upper-case hex digits: the output never contains spaces, control characters, quotes, '<', '>', '%' other than as escape, or non-ASCII bytes, and the map is injective.", "quantifier": "every string s", "why_tests_cant": "All strings.", "anchors": ["src/url/url.rs: Url::url_encode", "src/helper.rs: Helper::is_not_uritrans, to_hex"]}
{"id": "C21", "title": "Percent-decoding accepts exactly well-formed escapes and is total", "statement": "Url::url_decode succeeds iff every '%' is followed by two hex digits, otherwise returns UrlCodeInvalid; it never panics, and on inputs without '%' it is the identity.", "quantifier": "every string", "why_tests_cant": "All strings, in particular truncated escapes at the end.", "anchors": ["src/url/url.rs: Url::url_decode"]}
{"id": "C22", "title": "URL print/parse round-trip", "statement": "Formatting a URL with Display and parsing the text again yields a URL with the same scheme, user, password, domain, port, path and query.", "quantifier": "every URL whose components contain only characters legal in that component", "why_tests_cant": "All component strings.", "anchors": ["src/url/url.rs: Display for Url, Url::parse", "src/url/scheme.rs"]}
{"id": "C23", "title": "URL parsing is total and yields valid components", "statement": "Url::parse returns a value for every byte string (no panic, no divergence), and on success the port fits in 16 bits, the path is non-empty, and every component is valid UTF-8.", "quantifier": "every byte string", "why_tests_cant": "All inputs.", "anchors": ["src/url/url.rs: Url::parse, parse_url_token"]}
{"id": "C24", "title": "URL default ports and authority", "statement": "A parsed absolute URL without an explicit port carries the default port of its scheme, an explicit decimal port in 0..=65535 is carried exactly and larger numbers are rejected; get_connect_url is then `domain:port`.", "quantifier": "every scheme, host, port number and path", "why_tests_cant": "All port numbers, hosts and paths.", "anchors": ["src/url/url.rs: Url::parse, get_connect_url, get_authority"]}
{"id": "C25", "title": "Huffman round-trip", "statement": "HuffmanDecoder::decode(HuffmanEncoder::encode(s)) = s, and decode(encode_lower(s)) is the ASCII lower-casing of s.", "quantifier": "every byte string s", "why_tests_cant": "All byte strings of all lengths; the codes straddle byte boundaries in every possible alignment.", "anchors": ["src/http/http2/hpack/huffman.rs: HuffmanEncoder::encode, encode_lower, HuffmanDecoder::decode"]}
{"id": "C26", "title": "Huffman code is a complete prefix code equal to RFC 7541 Appendix B shape", "statement": "No code word of the table is a prefix of another, all 257 code words are distinct, their Kraft sum is exactly 1, and every byte string decodes without a panic.", "quantifier": "all pairs of table entries; every byte string for totality", "why_tests_cant": "Pairwise statement over the whole table plus all inputs.", "anchors": ["src/http/http2/hpack/huffman.rs: HUFFMAN_CODE_ARRAY, HuffmanDecoder::new, decode"]}
{"id": "C27", "title": "Huffman decoding is canonical", "statement": "Whenever the Huffman decoder accepts a byte string, re-encoding the result gives the same byte string (padding is minimal and all ones; the EOS symbol is rejected).", "quantifier": "every accepted byte string", "why_tests_cant": "All byte strings.", "anchors": ["src/http/http2/hpack/huffman.rs: HuffmanDecoder::decode, HuffmanEncoder::encode"]}
{"id": "C28", "title": "HPACK integer round-trip", "statement": "Decoding the encoding of an integer with the same prefix size gives the integer back and consumes exactly the encoded octets, whatever follows and whatever the leading flag bits are.", "quantifier": "every value the decoder's octet limit admits, every prefix size 1..8, every flag pattern, every following byte string", "why_tests_cant": "All values and tails.", "anchors": ["src/http/http2/hpack/encoder.rs: Encoder::encode_integer_into", "src/http/http2/hpack/decoder.rs: Decoder::decode_integer"]}
{"id": "C29", "title": "HPACK dynamic table size invariant", "statement": "After any history of insertions and maximum-size changes the recorded table size equals the sum over entries of name length + value length + 32 and does not exceed the current maximum; the table never panics.", "quantifier": "every operation history", "why_tests_cant": "All histories.", "anchors": ["src/http/http2/hpack/header_index.rs: HeaderIndex::add_header, set_max_table_size, consolidate_table, get_size"]}
{"id": "C30", "title": "HPACK dynamic table is the RFC 7541 eviction queue", "statement": "After any history the table holds, newest first, exactly the longest run of most recently inserted headers that fits the maximum size according to RFC 7541 section 4 eviction; index 62 is always the newest entry and lookups beyond the end fail.", "quantifier": "every operation history and every index", "why_tests_cant": "All histories and indices.", "anchors": ["src/http/http2/hpack/header_index.rs: HeaderIndex::add_header, get_from_index, set_max_table_size"]}
{"id": "C31", "title": "HPACK encoder/decoder synchronisation and round-trip", "statement": "A decoder fed, in order, with the blocks produced by an encoder with the same table size returns for every block exactly the header list that was encoded (names lower-cased), and both dynamic tables stay synchronised forever.", "quantifier": "every sequence of header blocks (histories), every header list", "why_tests_cant": "Correctness of the k-th block depends on the whole history.", "anchors": ["src/http/http2/hpack/encoder.rs: Encoder::encode, encode_header_into", "src/http/http2/hpack/decoder.rs: Decoder::decode", "src/http/http2/hpack/header_index.rs"]}
{"id": "C32", "title": "HPACK decoding terminates without panicking on every input", "statement": "Decoder::decode returns for every byte string and every table state.", "quantifier": "every byte string and every reachable decoder state", "why_tests_cant": "All inputs; non-termination cannot be observed by a finite test.", "anchors": ["src/http/http2/hpack/decoder.rs: Decoder::decode_with_cb"]}
{"id": "C33", "title": "HPACK static table is the RFC 7541 table", "statement": "get_from_index(i) for 1 <= i <= 61 is entry i of RFC 7541 Appendix A, and the encoder's static search finds the entry it claims to have found.", "quantifier": "all 61 indices and all headers searched", "why_tests_cant": "The search half quantifies over all headers.", "anchors": ["src/http/http2/hpack/header_index.rs: STATIC_TABLE_RAW, find_header"]}
{"id": "C34", "title": "HTTP/2 frame header round-trip", "statement": "Parsing an encoded 9-octet frame header gives back length, kind, flags and stream id; fewer than 9 octets, or undefined flag bits, are rejected; the reserved bit of the stream id is ignored on input.", "quantifier": "every length below 2^24, kind, flag set and 31-bit stream id, every following byte string, and every byte string on the parsing side", "why_tests_cant": "2^64 headers and all tails.", "anchors": ["src/http/http2/frame/frame.rs: FrameHeader::parse, FrameHeader::encode", "src/http/http2/frame/mod.rs: read_u24, read_u31, encode_u24"]}
{"id": "C35", "title": "SETTINGS round-trip", "statement": "Encoding a settings value and parsing the frame payload gives the same settings; the payload length written in the frame header equals the number of payload octets.", "quantifier": "every settings value with legal field values", "why_tests_cant": "All combinations of present fields and values.", "anchors": ["src/http/http2/frame/settings.rs: Settings::encode, parse, parse_setting, payload_len, for_each"]}
{"id": "C36", "title": "SETTINGS validation", "statement": "A SETTINGS payload is accepted only if it is on stream 0, a multiple of six octets, empty when ACK, with every ENABLE_PUSH in {0,1}, INITIAL_WINDOW_SIZE <= 2^31-1, MAX_FRAME_SIZE in 2^14..2^24-1; unknown identifiers are ignored and for repeated identifiers the last one wins.", "quantifier": "every frame header and payload", "why_tests_cant": "All payloads.", "anchors": ["src/http/http2/frame/settings.rs: Settings::parse, parse_setting"]}
{"id": "C37", "title": "HTTP2-Settings header round-trip", "statement": "The base64url text produced for the HTTP2-Settings upgrade header decodes to the same settings.", "quantifier": "every settings value with legal field values", "why_tests_cant": "All combinations of values.", "anchors": ["src/http/http2/frame/settings.rs: encode_http_settings, parse_http_settings"]}
{"id": "C38", "title": "DATA frame splitting", "statement": "Encoding a DATA frame yields a sequence of well formed DATA frames on the same stream whose payloads concatenate to the original data, each at most max_frame_size octets, with END_STREAM on the last one only and exactly when requested.", "quantifier": "every payload, stream id, flag set and max_frame_size > 0", "why_tests_cant": "All payload lengths relative to the frame size.", "anchors": ["src/http/http2/frame/data.rs: Data::encode"]}
{"id": "C39", "title": "Control frame round-trips", "statement": "PING, RST_STREAM, WINDOW_UPDATE, GOAWAY and PRIORITY frames parse back, through the frame header they were written with, to the value that was encoded; wrong payload sizes are rejected.", "quantifier": "every frame value and every payload", "why_tests_cant": "All values.", "anchors": ["src/http/http2/frame/ping.rs", "src/http/http2/frame/reset.rs", "src/http/http2/frame/window_update.rs", "src/http/http2/frame/go_away.rs", "src/http/http2/frame/priority.rs", "src/http/http2/frame/frame.rs: Frame::parse"]}
{"id": "C40", "title": "HEADERS splitting into CONTINUATION frames", "statement": "The frames produced for a header block are one HEADERS frame followed by CONTINUATION frames on the same stream, END_HEADERS is set on the last and only there, END_STREAM appears on the HEADERS frame iff requested, and decoding the concatenation of their payloads gives the original headers.", "quantifier": "every header list, flag set and max_frame_size, every encoder state", "why_tests_cant": "All header lists and sizes relative to the frame size.", "anchors": ["src/http/http2/frame/headers.rs: HeaderBlock::encode, Headers::encode"]}
{"id": "C41", "title": "Padding is removed from padded frames", "statement": "For a padded frame the payload delivered to the application is the data without the pad-length octet and without the padding; a pad length that does not fit is rejected.", "quantifier": "every data, pad length and padding", "why_tests_cant": "All payloads.", "anchors": ["src/http/http2/frame/frame.rs: Frame::trim_padding, Frame::parse"]}
{"id": "C42", "title": "Frame parsing never panics", "statement": "Frame::parse returns a value (frame or error) for every frame header and payload the peer can send.", "quantifier": "every frame header and payload", "why_tests_cant": "All inputs; the crash happens for one stream id.", "anchors": ["src/http/http2/frame/frame.rs: Frame::parse", "src/http/http2/frame/data.rs: Data::new"]}
{"id": "C43", "title": "Header list size limit is enforced", "statement": "Headers::parse with limit L never delivers a header list whose RFC 7541 size (sum of name + value + 32) exceeds L, and accepts every decodable list within the limit.", "quantifier": "every payload, decoder state and limit", "why_tests_cant": "All inputs.", "anchors": ["src/http/http2/frame/headers.rs: Headers::parse"]}
{"id": "C44", "title": "WebSocket frame header round-trip", "statement": "read_header(write_header(h)) = h with nothing left over, for every header; the length is always written in the shortest form.", "quantifier": "every flag set, opcode below 16, mask option and 64-bit length accepted by write_header (control opcodes with FIN set, as RFC 6455 requires), and every following byte string", "why_tests_cant": "2^64 lengths.", "anchors": ["src/ws/frame_header.rs: write_header, read_header"]}
{"id": "C45", "title": "WebSocket frame header parsing accepts only canonical headers", "statement": "If read_header accepts a header then re-encoding it gives exactly the octets it consumed; non-minimal lengths and control frames longer than 125 octets are rejected; headers are never misread when truncated.", "quantifier": "every byte string", "why_tests_cant": "All inputs.", "anchors": ["src/ws/frame_header.rs: read_header, write_header"]}
{"id": "C46", "title": "Masking is an involution independent of how data is chunked", "statement": "Applying the mask twice gives the data back; writing through a Masker in any number of pieces produces the same octets as masking the concatenation; octet i is xored with key octet i mod 4.", "quantifier": "every key, every data, every way of cutting the data into pieces", "why_tests_cant": "All cut points and contents.", "anchors": ["src/ws/mask.rs: Masker, mask_data"]}
{"id": "C47", "title": "WebSocket data frame round-trip", "statement": "Writing a data frame, masked or not, and reading it back yields the same fin flag, reserved bits, opcode and payload, leaving following octets untouched; the announced frame_size equals the number of octets written.", "quantifier": "every frame with opcode, payload within the control-frame limits, every mask, every following byte string", "why_tests_cant": "All payload lengths, including each side of 125/126 and 65535/65536.", "anchors": ["src/ws/dataframe.rs: DataFrameable::write_to, frame_size, DataFrame::read_dataframe"]}
{"id": "C48", "title": "WebSocket reading is total, bounded and prefix-safe", "statement": "Reading a data frame returns a value for every byte string; any strict prefix of a written frame yields an error, never a frame; with a limit, no frame with a payload above the limit is delivered.", "quantifier": "every byte string, every limit, every strict prefix", "why_tests_cant": "All inputs and cut points.", "anchors": ["src/ws/dataframe.rs: read_dataframe, read_dataframe_with_limit"]}
{"id": "C49", "title": "WebSocket messages do not depend on fragmentation", "statement": "A message split into any number of fragments (first with the message opcode, the rest Continuation) is reassembled to the same message as the unfragmented one.", "quantifier": "every payload and every way of cutting it into fragments", "why_tests_cant": "All cuttings.", "anchors": ["src/ws/message.rs: Message::from_dataframes"]}
{"id": "C50", "title": "WebSocket message round-trip", "statement": "Serialising a text, binary, ping, pong or close message into a frame, writing it with any mask, reading the frame and rebuilding the message gives the original message.", "quantifier": "every message (control payloads at most 125 octets), every mask", "why_tests_cant": "All payloads.", "anchors": ["src/ws/message.rs: Message/OwnedMessage impl DataFrameable, from_dataframes", "src/ws/dataframe.rs"]}
{"id": "C51", "title": "Text messages are valid UTF-8", "statement": "Every text message (and close reason) delivered by from_dataframes is valid UTF-8, and every valid UTF-8 text is delivered; malformed text is rejected with an error.", "quantifier": "every sequence of frames", "why_tests_cant": "All byte strings, including code points split across fragments.", "anchors": ["src/ws/message.rs: Message::from_dataframes, OwnedMessage::from_dataframes"]}
{"id": "C52", "title": "Fragment sequence validation", "statement": "from_dataframes accepts a sequence only if it is non-empty, every frame after the first is a Continuation frame, no reserved bits are set, the final-fragment flag is set on the last frame and only there, and control messages are not fragmented.", "quantifier": "every sequence of frames", "why_tests_cant": "All sequences.", "anchors": ["src/ws/message.rs: Message::from_dataframes"]}
{"id": "C53", "title": "Close codes round-trip", "statement": "CloseCode::from(u16) and back is the identity on all 65536 codes, and distinct codes give distinct CloseCode values.", "quantifier": "every u16", "why_tests_cant": "Exhaustive over codes, plus injectivity over all values.", "anchors": ["src/ws/message.rs: Into<u16> for CloseCode, From<u16> for CloseCode"]}
{"id": "C54", "title": "Extensions is a map keyed by type", "statement": "For any history of insert, remove, clear and extend, get(T) returns the last inserted value of type T not removed since, other types are unaffected, len counts the present types, and insert returns the previous value.", "quantifier": "every operation history", "why_tests_cant": "All histories.", "anchors": ["src/extensions.rs: Extensions::insert, get, remove, clear, extend, len, is_empty"]}
{"id": "C55", "title": "Request to HTTP/2 header fields and back", "statement": "The method, scheme, authority and path pseudo headers written for a request rebuild the same method and URL on the receiving side.", "quantifier": "every method and every URL with legal components", "why_tests_cant": "All URLs.", "anchors": ["src/http/http2/frame/headers.rs: Parts::request, encode_header, build_url, Headers::parse, into_request"]}
{"id": "C56", "title": "Host header completes the request URL", "statement": "For a request with an origin-form target and a Host header `name` or `name:port`, the parsed URL carries that domain and port; other header names never influence it.", "quantifier": "every target, host name, port and header list", "why_tests_cant": "All header lists, in particular names that only look like Host/:authority.", "anchors": ["src/http/request.rs: Request::parse_connect_by_host, parse_buffer", "src/http/header.rs: HeaderMap::get_host"]}
{"id": "C57", "title": "Stream identifiers advance by two and keep parity", "statement": "Repeatedly calling next_id yields start, start+2, start+4, ... with the parity of the start, all distinct, as long as the 32-bit counter does not overflow.", "quantifier": "every start value and number of calls", "why_tests_cant": "All histories.", "anchors": ["src/http/http2/frame/mod.rs: StreamIdentifier::next_id"]}
{"id": "C58", "title": "Hex text decoding", "statement": "hex_to_vec inverts the hexadecimal printing of bytes (ignoring spaces as the implementation does).", "quantifier": "every byte string", "why_tests_cant": "All byte strings.", "anchors": ["src/helper.rs: Helper::hex_to_vec, to_hex"]}
{"id": "C59", "title": "Reusing a request or response object is safe", "statement": "Parsing into a Request (Response) that was used before gives the same verdict and, on success, the same object as parsing the same bytes into a fresh one: no method, version, URL, header or flag of the earlier message leaks.", "quantifier": "every prior state of the object and every byte string", "why_tests_cant": "the prior state is arbitrary; tests always start from Request::new()", "anchors": ["src/http/request.rs: Request::parse_buffer", "src/http/response.rs: Response::parse_buffer"]}
{"id": "C60", "title": "is_partial tells whether a complete head was seen", "statement": "After parsing, is_partial() is false exactly when the input contains a complete head, so that a server may poll it to know whether to read more.", "quantifier": "every byte string and prior state", "why_tests_cant": "needs every truncation point of every head", "anchors": ["src/http/request.rs: is_partial, parse_buffer", "src/http/response.rs: is_partial, parse_buffer"]}
{"id": "C61", "title": "Canonical reason phrases are the registered ones", "statement": "StatusCode::canonical_reason returns, for every code, the phrase registered for it by the HTTP specifications, and None for every code without one.", "quantifier": "every status code 100..=999", "why_tests_cant": "A table of sixty phrases written by hand: tests copy the same table; here it is compared with a separately written registry over all 900 codes.", "anchors": ["src/http/status.rs: StatusCode::canonical_reason"]}
{"id": "C62", "title": "HPACK decoder reads every RFC 7541 header block", "statement": "Fed any octets that are a header block of RFC 7541 for its current table (indexed, literal with or without indexing, Huffman-coded or raw, padded integers), Decoder::decode returns exactly the header list the block stands for and leaves the dynamic table RFC 7541 prescribes.", "quantifier": "every dynamic table content, every maximum size, every conforming block from any peer", "why_tests_cant": "Peers choose among many representations of one header list; the set of blocks is infinite and depends on the history of the table.", "anchors": ["src/http/http2/hpack/decoder.rs: Decoder::decode, decode_literal, decode_indexed", "src/http/http2/hpack/header_index.rs: HeaderIndex"]}
{"id": "C63", "title": "HPACK encoder output is a conforming RFC 7541 header block", "statement": "What Encoder::encode writes for a header list is a header block of RFC 7541 which, for the current dynamic table, stands for exactly that list with names in lower case, so that any conforming peer (not only this library) reads it.", "quantifier": "every history of the table, every list of headers with ASCII names", "why_tests_cant": "Round-trip tests against the library's own decoder cannot see errors made alike on both sides; conformance has to hold for every header list and table state.", "anchors": ["src/http/http2/hpack/encoder.rs: Encoder::encode, encode_header_into, encode_string_literal, encode_integer_into", "src/http/http2/hpack/header_index.rs: find_header"]}
{"id": "C64", "title": "HTTP/2 message in one HEADERS frame reaches the peer", "statement": "A request or response given to Headers::encode as its pseudo header fields followed by ordinary fields arrives at the peer, after Frame::parse, as a HEADERS frame of the same stream with the same method, scheme, authority and path (or status), the same other fields in the same order and the same END_STREAM, and the encoder and decoder tables agree afterwards.", "quantifier": "every method, scheme, authority, path, status and list of distinct lower-case fields, every state of the connection", "why_tests_cant": "The outcome depends on every earlier header block of the connection through the dynamic tables.", "anchors": ["src/http/http2/frame/headers.rs: Headers::encode, Headers::parse, HeaderBlock", "src/http/http2/frame/frame.rs: Frame::parse", "src/http/http2/hpack/{encoder,decoder}.rs: Encoder, Decoder"]}
{"id": "C65", "title": "Frame accessors report the received header", "statement": "For every frame that Frame::parse returns, its variant, stream_id() and flags() are those of the frame header it was parsed from.", "quantifier": "every frame header and payload", "why_tests_cant": "All kinds, flags and payloads.", "anchors": ["src/http/http2/frame/frame.rs: Frame::parse, stream_id, flags"]}
{"id": "C66", "title": "Header blocks respect max_frame_size", "statement": "No HEADERS or CONTINUATION frame written for a header block has a payload longer than the encoder's max_frame_size.", "quantifier": "every header list, encoder state and max_frame_size", "why_tests_cant": "The encoded size depends on the dynamic table and on Huffman coding; all sizes relative to the limit.", "anchors": ["src/http/http2/frame/headers.rs: HeaderBlock::encode"]}
{"id": "C67", "title": "PUSH_PROMISE carries the promised request", "statement": "The frames PushPromise::encode writes announce the promised stream and the promised request's header fields; the receiver obtains both stream ids and those fields, and its header decoder stays in step with the sender's encoder.", "quantifier": "every promised request, stream ids and connection state", "why_tests_cant": "Whether the tables stay in step shows only in later header blocks.", "anchors": ["src/http/http2/frame/headers.rs: PushPromise::encode, PushPromise::parse"]}
{"id": "C68", "title": "Merging URLs", "statement": "Url::merge takes every component the other URL sets and keeps the others; merging is associative and idempotent and the empty URL is neutral, so any history of merges has one result. Merging a path-and-query reference changes only path and query.", "quantifier": "every pair or triple of URLs, every reference text", "why_tests_cant": "Components interact; a history of merges has unboundedly many shapes.", "anchors": ["src/url/url.rs: Url::merge"]}
{"id": "C69", "title": "URL builder", "statement": "Url::builder fails exactly when some call was given an invalid scheme, with the error of the first such call; otherwise the URL has in each component the value of the last call for it (or the default), and the text of a URL built from legal components parses back to it.", "quantifier": "every sequence of builder calls", "why_tests_cant": "Sequences of calls are unbounded and errors are carried along.", "anchors": ["src/url/url.rs: Builder"]}
{"id": "C70", "title": "Request builder", "statement": "Request::builder reports the first failing call's error whatever follows; otherwise method, version and URL are those of the last call that set them, and the header holds the given fields as a map with replacement, with Host from the URL. Serialising the built request and parsing it gives the request.", "quantifier": "every sequence of builder calls", "why_tests_cant": "Sequences of calls are unbounded; each URL call also writes a header field.", "anchors": ["src/http/request.rs: Builder, Request::http1_data"]}
{"id": "C71", "title": "HTTP/2 upgrade request", "statement": "A request built with upgrade_http2(settings) offers h2c, and the receiver, after serialisation and parsing, recovers exactly the settings from the HTTP2-Settings field.", "quantifier": "every call sequence before the upgrade and every legal SETTINGS value", "why_tests_cant": "base64 and SETTINGS coding of all combinations of values.", "anchors": ["src/http/request.rs: Builder::upgrade_http2", "src/http/header.rs: get_upgrade_protocol", "src/http/http2/frame/settings.rs: encode_http_settings, parse_http_settings"]}
{"id": "C72", "title": "Connection options are recognised", "statement": "is_keep_alive, is_chunked and get_upgrade_protocol hold exactly when the option is an element of the comma-separated list, in any letter case.", "quantifier": "every header", "why_tests_cant": "All lists, spellings and surrounding text.", "anchors": ["src/http/header.rs: is_keep_alive, is_chunked, get_upgrade_protocol"]}
{"id": "C73", "title": "Header values mean the same however they are stored", "statement": "Converting a header value to an integer gives the same result whether the value was a string literal or owned bytes.", "quantifier": "every byte string", "why_tests_cant": "All byte strings; the two representations use different parsers.", "anchors": ["src/http/value.rs: TryInto<usize>, TryInto<isize>"]}
{"id": "C74", "title": "HTTP/2 error codes", "statement": "Every error code of the registry has its name and number, unknown codes keep their number in every text form, and no two codes are confused.", "quantifier": "every 32-bit code", "why_tests_cant": "2^32 codes.", "anchors": ["src/http/http2/frame/reason.rs: Reason"]}
{"id": "C75", "title": "Validation of pushed requests", "statement": "PushPromise::validate_request accepts exactly the requests with a safe and cacheable method and without a body, and always returns.", "quantifier": "every request", "why_tests_cant": "All methods and Content-Length texts.", "anchors": ["src/http/http2/frame/headers.rs: PushPromise::validate_request"]}
{"id": "C76", "title": "No field can be smuggled into a request", "statement": "Whoever parses a serialised request sees its method, version and header fields and no others; in particular a request that was parsed can be serialised again without changing its fields.", "quantifier": "every request with legal fields, every parsed request, every body", "why_tests_cant": "Injection needs specific bytes in names, values or the path.", "anchors": ["src/http/request.rs: Request::http1_data, parse_buffer", "src/helper.rs"]}
{"id": "C77", "title": "Response builder", "statement": "Response::builder reports the first failing call's error; otherwise status, version and fields are those given last, and serialising and parsing the response gives it back. The ready-made responses have the status and content type their names say.", "quantifier": "every sequence of builder calls", "why_tests_cant": "Sequences of calls are unbounded.", "anchors": ["src/http/response.rs: Builder, Response::text, json, status404, status500, status502, status503"]}
{"id": "C78", "title": "Display shows the wire form", "statement": "The Display text of a request or response is the text that serialisation writes.", "quantifier": "every request and response", "why_tests_cant": "All status codes and value bytes.", "anchors": ["src/http/request.rs: Display", "src/http/response.rs: Display", "src/http/header.rs: Display"]}
{"id": "C79", "title": "Copies of messages", "statement": "replace_clone returns the head with the old body and leaves the head with the new body; into swaps the body; the copy has the same extensions.", "quantifier": "every head, body and history of extensions", "why_tests_cant": "Histories of insertions.", "anchors": ["src/http/request.rs: replace_clone, into", "src/http/response.rs: replace_clone, into", "src/extensions.rs: Extensions"]}
{"id": "C80", "title": "Forwarding from HTTP/2 to HTTP/1", "statement": "A request received in a HEADERS frame and sent on with http1_data is parsed by the receiver with the same method and fields, plus Host.", "quantifier": "every received header block", "why_tests_cant": "Any octets may occur in an HPACK string.", "anchors": ["src/http/http2/frame/headers.rs: Headers::into_request", "src/http/request.rs: http1_data"]}
{"id": "C81", "title": "Persistent HTTP/1 connections", "statement": "Any number of messages written one after the other with http1_data or httpdata, each with no body, with a Content-Length body or with a chunked body, are read back one by one and in order, each with its own body; what follows the last one is untouched. From a proper prefix of the octets the complete messages are read and the next read reports Partial.", "quantifier": "every list of well-formed requests or responses, every mix of body framings and body contents, every continuation of the stream and every truncation point", "why_tests_cant": "Confusing the end of one message with the start of the next (request smuggling) depends on the combination of framings and contents, which is unbounded.", "anchors": ["src/http/request.rs: Request::parse_buffer, Request::http1_data", "src/http/response.rs: Response::parse_buffer, Response::httpdata", "src/helper.rs: Helper::parse_chunk_data, Helper::encode_chunk_data", "src/http/header.rs: HeaderMap::get_body_len, HeaderMap::is_chunked"]}
{"id": "C82", "title": "A whole HTTP/2 connection", "statement": "Whatever sequence of SETTINGS, PING, RST_STREAM, WINDOW_UPDATE, GOAWAY, DATA, request and response frames one side encodes, on any streams, a receiver whose decoder is in step receives each of them with the same contents and in order, leaves what follows alone, and is in step again. The DATA octets of each stream arrive in order however streams are interleaved, and a stream ends exactly if that was sent. From a proper prefix the complete frames are received and the next read reports that octets are missing.", "quantifier": "every finite sequence of legal items on any streams, every frame size limit, every continuation and every truncation point", "why_tests_cant": "The HPACK state couples all header blocks of a connection, so an error appears only after some history of frames.", "anchors": ["src/http/http2/frame/mod.rs: Frame::encode, Frame::parse", "src/http/http2/frame/headers.rs", "src/http/http2/frame/data.rs", "src/http/http2/hpack/encoder.rs", "src/http/http2/hpack/decoder.rs"]}
{"id": "C83", "title": "A whole WebSocket connection", "statement": "A receiver that reads frames with DataFrame::read_dataframe and assembles them with OwnedMessage::from_dataframes gets exactly the messages sent, in order, however they were fragmented, masked and interrupted by control messages; and on arbitrary octets messages are delivered without an error exactly if the octets are frames that follow the fragmentation rules of RFC 6455 5.4.", "quantifier": "every list of messages, every fragmentation and masking of them, every interleaving of control frames, every octet string for the converse, every truncation point", "why_tests_cant": "Fragmentations and interleavings are unbounded.", "anchors": ["src/ws/dataframe.rs: DataFrame::read_dataframe, DataFrameable::write_to", "src/ws/message.rs: OwnedMessage::from_dataframes"]}
{"id": "C84", "title": "Writing calls return how much they wrote", "statement": "Every call that writes into a caller's buffer and returns a count (request and response heads, header maps, chunks, bodies of every type, all HTTP/2 frames including split ones, WebSocket frames) returns exactly the number of octets it appended, and a call that fails leaves the buffer as it was.", "quantifier": "every message, header map, chunk, body, frame with every frame size limit and encoder state, and WebSocket frame", "why_tests_cant": "The counts are sums kept by hand over loops and nested calls; a forgotten addend shows only for shapes that reach it.", "anchors": ["src/http/request.rs: Request::encode_header", "src/http/response.rs: Response::encode_header, Serialize for Response", "src/http/header.rs: HeaderMap::encode", "src/helper.rs: encode_chunk_data", "src/serialize.rs", "src/http/http2/frame/frame.rs: Frame::encode", "src/ws/dataframe.rs: DataFrameable::write_to"]}
{"id": "C85", "title": "Writing does not use things up", "statement": "Serialising a message or a frame leaves it as it was, so writing it a second time gives the same octets, and which of the supported types a body has makes no difference to the octets.", "quantifier": "every message, every body of every supported type, every DATA frame and frame size limit", "why_tests_cant": "Bodies and payloads are buffers with read positions; whether a path advances one depends on type and size.", "anchors": ["src/serialize.rs", "src/http/request.rs: Request::http1_data", "src/http/response.rs: Response::httpdata, Response::into_binary", "src/http/http2/frame/data.rs: Data::encode"]}
{"id": "C86", "title": "Small HTTP/2 codecs, frame names and queue order", "statement": "Window increments and error codes are read as written; the display name of a frame tells its type and stream; the order of prioritised frames is a total order consistent with its equality, and equal entries carry the same frame.", "quantifier": "every 32-bit value, every pair of frames, every triple of queue entries", "why_tests_cant": "Laws of an order and injectivity speak about all pairs and triples.", "anchors": ["src/http/http2/frame/mod.rs: SizeIncrement, ErrorCode", "src/http/http2/frame/frame.rs: Frame::display_name, PriorityFrame"]}
{"id": "C87", "title": "The host a request is for", "statement": "After Request::set_url the request is sent to, and understood by its receiver as being for, the host of that URL; get_host names this host, without a port, from the URL, the Host field or the :authority field, and from no other field.", "quantifier": "every request, every sequence of set_url calls, every header map", "why_tests_cant": "URL and Host field are two copies of the same fact; their agreement depends on the history of calls.", "anchors": ["src/http/request.rs: Request::set_url, Parts::get_host, Request::parse_buffer", "src/http/header.rs: HeaderMap::get_host"]}
{"id": "C88", "title": "Headers mean the same whether literal or owned", "statement": "A header name or value behaves the same whether it was given as a string literal or as an owned string or bytes: equality, hashing, length, text and wire forms depend on its bytes only, value equality is equality of bytes, equal values hash equally, and two programs that differ only in this get the same answer to every question about the header map, its serialised form and the body length.", "quantifier": "every name and value in either storage, every sequence of insert, push, remove, clear and index-assignment calls", "why_tests_cant": "Each of the two storages has its own branch in every function; agreement must hold for all bytes and all histories that mix them.", "anchors": ["src/http/name.rs: HeaderName", "src/http/value.rs: HeaderValue", "src/http/header.rs: HeaderMap"]}
{"id": "C89", "title": "What is set on a frame is what it shows and what the peer gets", "statement": "After any sequence of setter calls on a SETTINGS, HEADERS, PUSH_PROMISE or DATA frame, each getter shows what the last call for its field has set and all other fields are unchanged; the only call that panics is a maximal frame size outside 16384..16777215; the frame, once sent, shows the same values to the peer; every flag setter changes exactly its bit; the stream identifiers handed out from client_first() and server_first() never meet.", "quantifier": "every frame, every sequence of setter calls, every connection state", "why_tests_cant": "All sequences of calls and values; independence of the fields speaks about every pair.", "anchors": ["src/http/http2/frame/settings.rs: Settings::set_*", "src/http/http2/frame/headers.rs: Headers, PushPromise setters and getters", "src/http/http2/frame/data.rs: Data::set_end_stream, set_padded, payload_mut", "src/http/http2/frame/flag.rs: Flag", "src/http/http2/frame/mod.rs: StreamIdentifier"]}
{"id": "C90", "title": "Every error explains itself", "statement": "Every error returned by the parsers and writers is displayed as a non-empty text, different kinds of errors as different texts, and is_partial() is true exactly for the error of an incomplete message.", "quantifier": "every input of every parser, every error", "why_tests_cant": "The error depends on the input; all inputs and all pairs of errors.", "anchors": ["src/error.rs: WebError", "src/http/error.rs: HttpError", "src/url/error.rs: UrlError", "src/http/http2/error.rs: Http2Error", "src/ws/error.rs: WsError"]}
{"id": "C91", "title": "A shared compression table is safe under every schedule", "statement": "When encoders and decoders in any number of threads share one compression table (new_index with clones of one Arc<RwLock<HeaderIndex>>) and make any calls of encode, decode, decode_with_cb and set_max_table_size, then under every schedule no thread panics, the lock is not poisoned, the table always is a table of RFC 7541 within its maximum, every access is as if it happened at one instant, and no thread waits for ever.", "quantifier": "every number of threads, every sequence of calls in each, every interleaving of their lock operations and memory accesses", "why_tests_cant": "The number of schedules is unbounded; a test sees the few that the machine happens to take.", "anchors": ["src/http/http2/hpack/encoder.rs: Encoder::new_index, encode, encode_header_into", "src/http/http2/hpack/decoder.rs: Decoder::new_index, decode, decode_with_cb", "src/http/http2/hpack/header_index.rs: HeaderIndex::add_header, set_max_table_size, find_header"]}
{"id": "C92", "title": "Encoders that share a table can share a connection", "statement": "When several encoders share a table and write their header blocks to one connection, the peer reads every header as it was sent.", "quantifier": "every assignment of blocks to threads, every schedule, every order of the blocks on the wire", "why_tests_cant": "Depends on the schedule and on the whole history of the table.", "anchors": ["src/http/http2/hpack/encoder.rs: Encoder::new_index, encode_header_into", "src/http/http2/hpack/decoder.rs: Decoder::decode"]}
{"id": "C93", "title": "One table for both directions of a connection", "statement": "When an endpoint uses the same table for its encoder and its decoder, both sides still read every header as it was sent.", "quantifier": "every conversation of header blocks in both directions, every peer", "why_tests_cant": "Depends on the order of all blocks of the conversation and on the peer's implementation.", "anchors": ["src/http/http2/hpack/encoder.rs: Encoder::new_index", "src/http/http2/hpack/decoder.rs: Decoder::new_index", "src/http/request.rs: Parts::clone (the table in the extensions)"]}
{"id": "C94", "title": "Character classes", "statement": "Each of the crate's character classes (letters, digits, hexadecimal digits, tokens, reason phrases, header names, header values, schemes, URI characters, characters that are not escaped) recognises exactly the octets that its documentation or the RFC lists, and the two hexadecimal conversions are inverse to each other.", "quantifier": "every octet and every class", "why_tests_cant": "Each class is a table of 256 entries; a wrong entry shows only on the one octet a test leaves out.", "anchors": ["src/helper.rs: is_token, is_status_token, is_alpha, is_digit, is_hex, to_hex, convert_hex, is_uri_token, is_not_uritrans, is_header_name_token, is_header_value_token", "src/url/scheme.rs: is_scheme_token"]}
{"id": "C95", "title": "Text conversions", "statement": "str::parse reads a Method from exactly its name in any case and a Scheme from exactly its name in any case; Scheme::try_from and Version::from read back what as_str writes; the predicates tell the variants apart; a Url equals a text exactly when the text is what it is displayed as, and the text then denotes the URL.", "quantifier": "every Unicode text, every upper-case table of Unicode beyond ASCII, every method, scheme, version and URL", "why_tests_cant": "All texts; upper case is defined by a table of thousands of characters.", "anchors": ["src/http/method.rs: FromStr", "src/url/scheme.rs: FromStr, TryFrom<&str>, is_http, is_https, is_ws, is_wss", "src/http/version.rs: From<&str>, is_http1, is_http2", "src/url/url.rs: PartialEq<str>"]}
{"id": "C96", "title": "Message objects", "statement": "Whatever setters and mutable accessors are called on a Request or Response, in whatever order, afterwards each part (method, version, URL, header fields, extensions, body, status) is what the calls on that part have made of it in order and no call has changed another part, set_url apart, which also adds a missing Host field; what is then sent has these parts; taking a message apart and putting it together, or converting its body, keeps all other parts; == on methods and schemes is equality.", "quantifier": "every message, every sequence of calls with every argument and every closure given to a mutable accessor", "why_tests_cant": "All sequences of calls and all closures.", "anchors": ["src/http/request.rs: Request::{set_*, *_mut, into, into_type, new_by_parts, replace_clone, is_partial, is_complete, get_body_len}", "src/http/response.rs: Response::{*_mut, into_parts, from_parts, into_body, map, into, into_type, into_binary, replace_clone}", "src/http/response.rs: Builder::{extension, extensions_ref}"]}
{"id": "C97", "title": "The application's entries of a header map", "statement": "A HeaderMap also carries entries that an application sets with system_insert. After any sequence of calls, system_get gives for each key the value set last, and no other call changes it; the fields, what is sent, Display, len, is_empty and iteration are what they would be without the entries; two maps are equal exactly when their fields are equal one by one in order and each key has the same value in both; a clone equals its original; clear empties the map.", "quantifier": "every sequence of push, insert, remove, clear, value edits and system_insert, with every name, value and key", "why_tests_cant": "All interleavings of calls on two tables of one object.", "anchors": ["src/http/header.rs: HeaderMap::{system_insert, system_get, clear, len, is_empty, into_iter}, PartialEq, Clone, Display for HeaderMap"]}
{"id": "C98", "title": "The language of the HTTP/2 frame reader", "statement": "Which octets a receiver reads as a frame, which frame it makes of them and how its compression table changes are given by a grammar of its own (frame header with a reserved bit, defined flags only, the pad-length octet, one rule for each type, the header list rules: every pseudo header readable, the last one counting, other fields replacing earlier ones of the same name): the reader accepts exactly this language, one frame at a time and over a whole connection, whatever follows; the grammar is unambiguous. CONTINUATION and unknown types are never read.", "quantifier": "every reachable decoder table, every header list limit, every string of octets", "why_tests_cant": "All octet strings and all histories; rejecting everything outside the language is a statement about infinitely many inputs.", "anchors": ["src/http/http2/frame/frame.rs: FrameHeader::parse, Frame::parse, Frame::trim_padding", "src/http/http2/frame/headers.rs: Headers::parse, PushPromise::parse", "src/http/http2/frame/{data,priority,reset,settings,ping,go_away,window_update}.rs: parse"]}
{"id": "C99", "title": "WebSocket messages in their two forms", "statement": "The borrowed and the owned form of a WebSocket message are the same message: whichever is sent, the same octets leave, namely one final frame with the opcode and payload RFC 6455 gives to the message, and the size computed beforehand is the number of octets written. A control message with more than 125 octets is refused. The predicates is_close, is_ping, is_pong, is_control, is_data tell exactly the opcode on the wire. Converting an owned message to the borrowed form and back is the identity; the other way it is the identity exactly for messages shaped as the constructors shape them. A String becomes a text message, a Vec a binary one, and a CloseData is the payload of the close message it stands in.", "quantifier": "every owned message with string content in UTF-8, every borrowed message including those built by setting the public fields, every masking key or none", "why_tests_cant": "the equality of two writing paths (chunks written through a masker or not) must hold for every payload and key; tests compare a few", "anchors": ["src/ws/message.rs: OwnedMessage, Message, CloseData, message_size, From impls", "src/ws/dataframe.rs: DataFrameable::write_to, frame_size"]}
{"id": "C100", "title": "Status codes, their constants and their texts", "statement": "Every constant of StatusCode is named after the reason phrase of its number (capitals, underscores), every number with a phrase has a constant, and no two constants share a name or a number. The text of a code is its three digits, a blank and its phrase or a fixed text for codes without one; the status line written is this text and CRLF, and writing fails for codes without a phrase. The pseudo header built from a code carries its three digits and is read back as the code. Comparing a code with a number, on either side, agrees with converting the number to a code. The default is OK.", "quantifier": "every status code 100 to 999, every u16, the whole constant table", "why_tests_cant": "900 codes, 65536 numbers and 60 constants with three attributes each; a test checks a handful", "anchors": ["src/http/status.rs: StatusCode, status_codes!, Display, PartialEq<u16>, build_header, encode, Default"]}
{"id": "C101", "title": "Constructors of small HTTP/2 frames, connection preface, stream identifiers", "statement": "A PING (new, pong, the answer to a received ping), GOAWAY (new, with debug data), RST_STREAM or WINDOW_UPDATE made with a public constructor is written as the octets RFC 9113 prescribes for its arguments and arrives at the receiver as made. The preface constant is the 24 octets of RFC 9113; neither the HTTP/1 request parser nor the frame reader takes it for a message, whatever follows it. The octet written for a frame type is its registered number and 255 for no registered type. Eight octets are read as one 64-bit number and a shorter buffer gives zero without being consumed. First stream identifiers have the parity RFC 9113 demands, and identifiers are ordered as numbers.", "quantifier": "every payload, identifier, error code, increment and debug data in range, every continuation of the input", "why_tests_cant": "the arguments range over 2^64 payloads and all 31-bit identifiers; the preface claim ranges over everything that can follow", "anchors": ["src/http/http2/frame/ping.rs: Ping", "src/http/http2/frame/go_away.rs: GoAway", "src/http/http2/frame/reset.rs: Reset", "src/http/http2/frame/window_update.rs: WindowUpdate", "src/http/http2/frame/priority.rs: Priority::into", "src/http/http2/mod.rs: HTTP2_MAGIC", "src/http/http2/frame/mod.rs: StreamIdentifier, read_u64", "src/http/http2/frame/kind.rs: Kind::encode"]}
{"id": "C102", "title": "Every outcome of the HTTP/2 frame reader, and the error it gives", "statement": "Whatever octets arrive and whatever was received before, the outcome of reading a frame is one of four, each described by a grammar over the octets: a frame; an error, which names the first defect found (incomplete, undefined flag, padding, the HPACK integer, string, code or index that cannot be read, the header list over its limit, an unreadable method, scheme or status, a payload length, a stream identifier, a setting, a dependency or an increment that is not allowed, a frame type that is not handled); a panic; or no return. An error means exactly one defect. 'Short' is given exactly when the input ends before the frame whose header can be read, and any other error stays the same whatever follows. An error leaves the decoder's table as it was unless it comes from a header block; then the table holds the fields read before the defect.", "quantifier": "every octet string, every decoder reachable from a new one, every limit on header lists", "why_tests_cant": "the four cases must cover and separate all octet strings for all table states; tests sample a few malformed frames and check at most that some error is returned", "anchors": ["src/http/http2/frame/frame.rs: Frame::parse, trim_padding", "src/http/http2/frame/mod.rs: FrameHeader::parse", "src/http/http2/frame/headers.rs: Headers::parse", "src/http/http2/frame/{priority,reset,settings,ping,go_away,window_update}.rs: parse", "src/http/http2/hpack/decoder.rs: Decoder::decode, decode_integer, decode_string", "src/http/http2/error.rs: Http2Error", "src/http/http2/hpack/decoder.rs: DecoderError"]}
{"id": "C103", "title": "Every refused request, response, URL and chunk, the error it gets, and what the object then holds", "statement": "Every octet string given to Request::parse, Response::parse or Url::parse is either accepted or refused with one error, and a grammar over the octets says which: the end of the input before the head, word, field or escape is finished (Partial); a CR without LF (NewLine); an octet where a word must start (Token); a word that is no method, version or status code; a header name that is missing or not followed by a colon; a scheme of more than 64 characters; a target or Host that is no URL or no host and port. The chunk reader refuses likewise, and panics exactly for a size that does not fit in 64 bits with the two octets behind the data. No other error is ever given. A refused request keeps its previous URL; its method, version and header fields are those read before the defect; it is no longer partial exactly when the target or the Host field is the defect.", "quantifier": "every octet string, every previous content of the request or response", "why_tests_cant": "the grammars of the accepted and the refused inputs must cover all octet strings without overlap; tests try a handful of malformed heads and mostly check that there is some error", "anchors": ["src/http/request.rs: Request::parse, parse_buffer, parse_connect_by_host, is_partial", "src/http/response.rs: Response::parse, parse_buffer", "src/url/url.rs: Url::parse", "src/helper.rs: parse_header, parse_token, skip_new_line, skip_empty_lines, parse_chunk_data", "src/http/error.rs: HttpError", "src/error.rs: WebError"]}
{"id": "C104", "title": "Every refused WebSocket header, frame and frame sequence and its error; what 'unexpected end' means", "statement": "Every octet string given to the WebSocket frame reader, with or without a limit on the payload, is either accepted or refused with one error, and a grammar over the octets says which: end of input inside the two fixed octets, the extended length, the masking key or the payload (unexpected end); a length not in its shortest form; a control frame with an extended length; a control frame that is not final; a payload above the limit. Every sequence of frames given to the message builder is either one message or refused with one error: no frame, a later frame that is no continuation, reserved bits, an opcode that is no message type, text or close reason that is not UTF-8, a close of one octet. Every error but unexpected end stays whatever octets follow, and unexpected end is given only while some octets can still complete the frame.", "quantifier": "every octet string, every limit, every sequence of frames, every continuation of the input", "why_tests_cant": "the accepted and refused inputs must cover all octet strings without overlap, and the claim about unexpected end speaks of all continuations", "anchors": ["src/ws/frame_header.rs: read_header", "src/ws/dataframe.rs: read_dataframe, read_dataframe_with_limit", "src/ws/message.rs: Message::from_dataframes, OwnedMessage::from_dataframes"]}
{"id": "C105", "title": "What a failed read leaves in the caller's buffer, and whether the call can be repeated", "statement": "A reader that is handed the caller's buffer and fails leaves a definite end of it: for requests, responses, URL schemes, WebSocket frames, HTTP/2 frame headers and header blocks, the error and the octets left are determined by the input as a grammar says, and a successful read takes exactly the octets it counts. A caller that gets 'more data needed' and calls again with what is left and the octets that came since gets the result of one call on all the octets.", "quantifier": "every octet string, every place where it is cut, every continuation, every object and table state before the call", "why_tests_cant": "the octets left must be known for every refused input, and the repeated call must agree for every cut and every continuation", "anchors": ["src/http/request.rs: Request::parse_buffer", "src/http/response.rs: Response::parse_buffer", "src/helper.rs: Helper::parse_token, skip_new_line, skip_empty_lines, parse_header", "src/url/scheme.rs: Scheme::parse_scheme", "src/ws/frame_header.rs: read_header", "src/ws/dataframe.rs: read_dataframe, read_dataframe_with_limit", "src/http/http2/frame/frame.rs: FrameHeader::parse", "src/http/http2/hpack/decoder.rs: decode_with_cb"]}
{"id": "C106", "title": "What is made of received octets is bounded by them", "statement": "No reader makes more out of its input than a known multiple of it: a decoded Huffman string has at most 8/5 of its octets, text with replacement characters at most three times its octets, a URL at most its text, header fields of an HTTP/1 head at most the head, a WebSocket payload and an HTTP/2 payload at most the frame; a header block of n octets gives at most n fields, each no larger than the largest entry of a table, and the header list limit of a connection bounds what a header block can make.", "quantifier": "every octet string, every state of the decoder's table, every limit", "why_tests_cant": "the factor has to hold for all inputs of all lengths, and the largest case needs an adversary's input", "anchors": ["src/http/http2/hpack/huffman.rs: HuffmanDecoder::decode", "src/http/http2/hpack/decoder.rs: Decoder::decode, decode_with_cb", "src/http/http2/frame/headers.rs: Headers::parse", "src/url/url.rs: Url::parse", "src/http/request.rs: Request::parse", "src/http/response.rs: Response::parse", "src/helper.rs: Helper::parse_chunk_data", "src/ws/dataframe.rs: read_dataframe", "src/ws/message.rs: Message::from_dataframes"]}
{"id": "C107", "title": "Every outcome of the writers", "statement": "For every request, response, WebSocket frame, header list and HTTP/2 frame that a caller can build, encoding either fails with one particular error (no method, no version, no reason phrase, an opcode above 15, a control frame of more than 125 octets) or appends one particular octet string: the head as RFC 9112 writes it; the WebSocket frame with the announced size and the masked payload; each header field as static index, static name, dynamic index or literal with Huffman coded strings and shortest integers; header blocks and data cut at the frame size; frames with the length of their payload. No writer panics, and none runs for ever.", "quantifier": "every value of the public types, every state of the encoder's table, every frame size", "why_tests_cant": "which of the representations is chosen depends on the whole history of the table, and the outcome has to be one for all objects", "anchors": ["src/http/request.rs: Request::encode_header", "src/http/response.rs: Response::encode_header", "src/ws/dataframe.rs: DataFrameable::write_to", "src/ws/frame_header.rs: WsFrameHeader::write_header", "src/http/http2/hpack/encoder.rs: Encoder::encode_header_into, encode_integer_into", "src/http/http2/hpack/header_index.rs: HeaderIndex::find_header", "src/http/http2/frame/frame.rs: Frame::encode, FrameHeader::encode", "src/http/http2/frame/headers.rs: HeaderBlock::encode, PushPromise::encode", "src/http/http2/frame/data.rs: Data::encode"]}
{"id": "C108", "title": "Which heads of RFC 9112 are read as the RFC means them", "statement": "A request head written in the grammar of RFC 9112 is read with its method, version and fields exactly if the method is one of the nine known ones, the version is HTTP/1.0 or HTTP/1.1, the target has a URL, every value has only spaces in front and nothing behind it, and no field name occurs twice; any other method or version is refused with its error. Targets: origin form exactly without '@', with escapes that stand for UTF-8 and a usable Host; absolute form exactly without ':' in the host, with a port that is not empty, without '@', and with no query without a path; authority form exactly without ':' in the host and with a port below 65536; asterisk form never. A response head likewise exactly if the code is not below 100 and the reason is not empty and in visible ASCII.", "quantifier": "every head in the grammar of RFC 9112, every continuation behind it, every previous state of the object", "why_tests_cant": "the grammar is infinite and the interesting heads are those nobody thought of", "anchors": ["src/http/request.rs: Request::parse_buffer", "src/http/response.rs: Response::parse_buffer", "src/helper.rs: Helper::parse_header_value, parse_header_name, parse_method, parse_version, parse_token", "src/url/url.rs: Url::parse", "src/http/request.rs: Request::parse_connect_by_host"]}
{"id": "C109", "title": "What is accepted that RFC 9112 does not allow", "statement": "An accepted request head conforms to RFC 9112 exactly if no empty line precedes it, single spaces separate the words, the target has one of the four forms, the version is HTTP/1.0 or HTTP/1.1, CRLF ends the line, no header line has a space in front of the colon or a control character in the value, an empty value is followed by CRLF, and CRLF ends the block; an accepted response head likewise. These are all the ways in which an accepted head can differ from the grammar.", "quantifier": "every octet string that is accepted as a head", "why_tests_cant": "that a list of deviations is complete is a statement about all accepted inputs", "anchors": ["src/http/request.rs: Request::parse_buffer", "src/http/response.rs: Response::parse_buffer", "src/helper.rs: Helper::parse_header, parse_header_value, skip_new_line, skip_spaces, skip_empty_lines"]}
{"id": "C110", "title": "HTTP/2 frames of RFC 9113: which are read as meant, and which others are accepted", "statement": "A DATA, PRIORITY, RST_STREAM, SETTINGS, PING, GOAWAY or WINDOW_UPDATE frame of RFC 9113 is read as what it means exactly if none of the bits 2, 16, 64, 128 is set in its flags and the flag PADDED finds nothing to remove; a HEADERS frame with its whole block exactly if moreover its list is within the limit, its texts are UTF-8, its method is one of the nine, its scheme has at most 64 octets, its status is not below 100 and no field name occurs twice. An accepted frame of those kinds is one of the RFC exactly if PRIORITY and RST_STREAM are on a stream and have the exact length, GOAWAY is on stream 0, DATA has the padding it announces and the other kinds have no octet too many.", "quantifier": "every frame of RFC 9113, every accepted frame, every state of the connection, every continuation", "why_tests_cant": "frames have 24 bits of length, 8 bits of flags and header lists of any size; that the list of deviations is complete concerns all of them", "anchors": ["src/http/http2/frame/frame.rs: Frame::parse, trim_padding", "src/http/http2/frame/headers.rs: Headers::parse", "src/http/http2/frame/priority.rs: StreamDependency::load", "src/http/http2/frame/go_away.rs: GoAway::parse", "src/http/http2/frame/frame.rs: FrameHeader::parse"]}
{"id": "C111", "title": "WebSocket connections of RFC 6455: all are received, and what else is", "statement": "One direction of a connection that follows RFC 6455 (masking by role, minimal lengths below 2^63, control frames between fragments, UTF-8 in text and in close reasons, close codes that may be sent, no data after a close) is received message by message without an error. Whatever is received without an error and without an unfinished message is a sequence of frames of the RFC that carry those messages, and it conforms exactly if all frames are masked or none according to the role, all lengths are below 2^63, all close codes may be sent and no data follows a close. What is written for messages within the limits are such frames with the given keys.", "quantifier": "every sequence of frames, every octet string, every number of frames, every continuation", "why_tests_cant": "connections of any length with any interleaving of fragments and control frames; completeness of the list of deviations concerns all accepted inputs", "anchors": ["src/ws/frame_header.rs: read_header", "src/ws/dataframe.rs: read_dataframe, write_to", "src/ws/message.rs: Message::from_dataframes, OwnedMessage"]}
{"id": "C112", "title": "Chunked bodies of RFC 9112: which are read, and what else is", "statement": "A client that reads a chunked body with parse_chunk_data, block by block, gets the blocks of a body of RFC 9112 and exactly what follows it if and only if the body has no chunk extensions and no trailer fields. With an extension it is never read to an end; with trailer fields the blocks are read and the trailer section, without its first two octets, is left in front of what follows. The accepted bodies are exactly those with size lines of hexadecimal digits ended by CRLF, a line feed or a space, with the blocks followed by any two octets. What encode_chunk_data writes for any non-empty blocks and a final empty block is such a body of the RFC and carries these blocks.", "quantifier": "every number of blocks, every content, all spellings of the sizes, all extensions and trailer sections, every continuation", "why_tests_cant": "bodies have any number of chunks of any sizes and contents, and data can look like chunk headers; completeness of the accepted form concerns all inputs", "anchors": ["src/helper.rs: Helper::parse_chunk_data, Helper::encode_chunk_data, Helper::parse_hex"]}
{"id": "C113", "title": "Where the requests of RFC 9112 end", "statement": "A receiver that parses the head and then takes the body as is_chunked and get_body_len say reads a request that conforms to RFC 9112 (sections 2 to 7: head, Transfer-Encoding with chunked as the final coding, else Content-Length, else no body) to its method, version, fields and content and to exactly the octets that follow it if and only if the head satisfies the conditions of C108 and the coding is spelled chunked in small letters and the chunked body has no extensions and no trailer fields, or the length is below 2^63. Any number of such requests on one connection are told apart. (No field name that the comparison of names confuses with one of the two names, see C15.)", "quantifier": "every conforming request with every body, every continuation, every number of requests", "why_tests_cant": "a framing error is seen only with the right combination of head, body and what follows; the conditions have to be complete over all conforming messages", "anchors": ["src/http/header.rs: is_chunked, get_body_len", "src/helper.rs: Helper::parse_chunk_data", "src/http/request.rs: parse_buffer, parse"]}
{"id": "C114", "title": "Where the responses of RFC 9112 end", "statement": "A client that parses the head of a response and then asks the method of its request with res_nobody, and unless that says that there is no body takes the body as is_chunked and get_body_len say, reads a response that conforms to RFC 9112 (section 6.3: no body for HEAD, 1xx, 204, 304 and successful CONNECT; chunked; Content-Length; until the connection closes) to its version, code, fields and content and to exactly the octets that follow if and only if the head satisfies the conditions of C108 and: a response without body answers HEAD, OPTIONS or CONNECT or has neither the word chunked nor a length above 0; a body with a length does not answer OPTIONS or CONNECT unless empty; a chunked body does not answer them, is spelled chunked and has no extensions and no trailer; a body until close is as long as the Content-Length that does not count (0 if there is none). Any number of such responses on one connection are told apart. res_nobody is true exactly for HEAD, OPTIONS and CONNECT, is_nobody also for GET.", "quantifier": "every conforming response to every method with every body, every continuation, every number of responses", "why_tests_cant": "where a response ends depends on method, code, two fields and the octets that follow; only the wrong combination shows an error, and the conditions have to be complete over all conforming responses", "anchors": ["src/http/method.rs: Method::res_nobody, Method::is_nobody", "src/http/header.rs: is_chunked, get_body_len", "src/helper.rs: Helper::parse_chunk_data", "src/http/response.rs: parse_buffer, parse"]}
{"id": "C115", "title": "The requests and responses of RFC 9113", "statement": "The fields of a conforming HTTP/2 request for an http or https URI (RFC 9113, 8.2, 8.3.1: pseudo header fields first in any order, lower case tokens, no connection fields, a host field equal to :authority), collected by a HEADERS frame and made into a request, give the method, URI and fields that they mean if and only if the list is within the limit, the method is one of the nine, the escapes stand for UTF-8, the host has no ':', the port is not empty and below 65536, the target has no '@' and no field other than host is repeated; the same equivalence holds for CONNECT and for responses, and from the octets of a HEADERS frame with an RFC 7541 block.", "quantifier": "every conforming request, CONNECT and response of RFC 9113, every order of the pseudo header fields, every header list limit, every HPACK representation and decoder state", "why_tests_cant": "the target is rebuilt by gluing scheme, authority and path into a text that is parsed again, so whether a request goes to the right host depends on every character of three fields at once; tests see a few well behaved targets", "anchors": ["src/http/http2/frame/headers.rs: Headers::parse, Headers::into_request, Headers::into_response, Parts::build_url", "src/http/request.rs: Builder::url, Builder::headers", "src/http/http2/frame/frame.rs: Frame::parse"]}
{"id": "C116", "title": "The URIs of RFC 3986", "statement": "A URI with an authority and without a fragment is parsed to the scheme, user, password, host, port, path and query that it means if and only if its scheme has at most 64 characters and is in lower case when known, its user information has exactly one ':', its host has none, its port is not empty and below 65536, its escapes stand for UTF-8, there is no '@' behind the host and no query without a path; a URI with a fragment (and no '@' behind the host) is never parsed to what it means; and Display of a URL whose host is one of RFC 3986 is a URI that means that URL.", "quantifier": "every URI of RFC 3986 that has an authority; every URL that the crate can hold", "why_tests_cant": "the grammar is infinite in seven components that interact (an '@' or '#' or '?' in one changes another), and the claim is an equivalence: it also says which URIs are misread", "anchors": ["src/url/url.rs: Url::parse, Url::url_decode, Url::url_encode, Display", "src/url/scheme.rs: Scheme::parse_scheme"]}
{"id": "C117", "title": "What is written as HTTP/1 is RFC 9112", "statement": "The octets that http1_data and httpdata give for a message object and a body are a conforming message of RFC 9112 which means that object and carries that body, as any conforming recipient reads it, if and only if the object meets stated conditions (token method other than CONNECT, version 1.0 or 1.1, path of path characters without escapes, no query, token names, values without blanks at the ends or control characters, one right Host field in HTTP/1.1, no Transfer-Encoding, the right Content-Length; for responses the corresponding ones); pieces written with encode_chunk_data are a chunked body exactly if none is empty before the end; a request built from a method and a URL and sent is right exactly if its host and path need no escapes and there is no query.", "quantifier": "every request and response object, every body, every list of pieces, every method and URL text", "why_tests_cant": "the recipient is any implementation of the RFC and the octets are ambiguous as soon as a component can hold a blank or a line break; the claim is an equivalence over all objects", "anchors": ["src/http/request.rs: Request::http1_data, Request::encode_header, Builder::body", "src/http/response.rs: Response::httpdata, Response::encode_header", "src/helper.rs: Helper::encode_chunk_data", "src/http/header.rs: HeaderMap::encode"]}
{"id": "C118", "title": "What is written as HTTP/2 is RFC 9113", "statement": "The octets that Frame::encode gives for a frame, with any encoder, are frames of RFC 9113 (with header blocks of RFC 7541) that tell a receiver with the same dynamic table this frame, none longer than the encoder's maximum frame size, and leave both tables equal, if and only if the frame meets stated conditions: DATA of a stream other than 0 without the padded flag; HEADERS of a stream other than 0 without priority and pseudo header parts, with fields whose names the table search does not confuse, with pieces that are short enough, and with END_STREAM only if one frame is enough; SETTINGS that are legal, or the acknowledgement; PING of eight octets; GOAWAY, WINDOW_UPDATE and RST_STREAM with legal numbers; PRIORITY and PUSH_PROMISE never.", "quantifier": "every frame object, every encoder table and size bound, every maximum frame size below 2^24", "why_tests_cant": "the receiver is any implementation of the RFC; the frames depend on the whole history of the table and on how fields happen to fall into pieces", "anchors": ["src/http/http2/frame/frame.rs: Frame::encode", "src/http/http2/frame/headers.rs: HeaderBlock::encode, Headers::encode, PushPromise::encode", "src/http/http2/frame/data.rs: Data::encode", "src/http/http2/frame/settings.rs: Settings::encode", "src/http/http2/frame/priority.rs", "src/http/http2/hpack/encoder.rs: Encoder::encode_header_into"]}
{"id": "C119", "title": "What is written to a WebSocket is RFC 6455", "statement": "The octets that DataFrameable::write_to gives for any objects, one after another, are what a client (or a server) may say by RFC 6455 to tell a list of messages if and only if no reserved bit is set and the frames that the objects stand for tell it: masked throughout (or not at all), with lengths below 2^63, fragments in order, whole control frames of at most 125 octets, texts and reasons in UTF-8, close codes that may be sent, and no data after a close. For OwnedMessage values this comes down to the masks, the lengths, the codes and the order; for a Message with its public fields set in any way, to what its opcode and payload mean. The octets tell one list of messages at most.", "quantifier": "every list of DataFrame, Message and OwnedMessage values, every masking key, client and server", "why_tests_cant": "the receiver is any implementation of the RFC; payloads, keys and sequences are unbounded, and whether a frame is legal depends on all that were written before", "anchors": ["src/ws/dataframe.rs: DataFrameable::write_to, DataFrame", "src/ws/message.rs: Message", "src/ws/message.rs: OwnedMessage"]}
{"id": "C120", "title": "The HTTP/2 messages that are sent are those of RFC 9113 section 8", "statement": "The fields that Parts::request and Parts::encode_header make of a method and a URL, with the fields of a request inserted behind them, and the HEADERS and CONTINUATION frames that carry them, are for any implementation of RFC 9113 a request with that method, for that URL and with those fields if and only if the URL is http or https with the port of its scheme, has no user, password or query and nothing in host and path that needs an escape, a Host field is the host without the port, no field belongs to the connection, names are tokens and values legal, and no two names (nor a name and a pseudo header field) compare equal. Responses likewise, with the status and the fields. The octets mean one list of fields at most.", "quantifier": "every method, URL, header map, status, HPACK table, frame size limit and stream", "why_tests_cant": "the receiver is any implementation of the RFC and URLs, fields and tables are unbounded; that no other input is sent correctly needs a proof over all readings of the octets", "anchors": ["src/http/http2/frame/headers.rs: Parts::request, Parts::response, Parts::encode_header, Headers::encode", "src/http/header.rs: HeaderMap::insert"]}
{"id": "C121", "title": "What a URL shows is a URI of RFC 3986 that means it", "statement": "The text that Display writes for a Url is, read with the grammar of RFC 3986 by anybody, a URI that means that Url if and only if the Url has a scheme name of the RFC, a port, a path that starts with '/' and has no '?', a host that is legal as it stands and has no escape, and either no user and no password or both, with no ':', '@', '/' or '?' in the user and no '@', '/' or '?' in the password. get_authority and get_connect_url likewise write an authority that means host and port exactly when the host is legal as it stands (and, for get_authority without a scheme, there is no port to lose). A text is one URI at most and means one Url at most, so that different Urls of that kind show different texts.", "quantifier": "every Url whose parts are text, with any scheme, user, password, host, port, path and query", "why_tests_cant": "parts are unbounded strings and the reader is any implementation of the RFC; that no other Url is shown correctly needs a proof over all readings of the text", "anchors": ["src/url/url.rs: Url::fmt (Display), Url::get_authority, Url::get_connect_url, Url::url_encode"]}
{"id": "C122", "title": "A message that is received and sent on is the message that was received", "statement": "A conforming HTTP/1 request that is read, head and content, and then written with http1_data with that content gives a conforming request with the same method, version, fields, content and target (same path and query, and for a proxy request the same host) if and only if it has no query, no path escape that is needed, for an absolute target a Host field that names the same host and port, and is not chunked; a CONNECT request never. A response is written at all if and only if its status code is one of those with a phrase, and is the same unless it is chunked. An HTTP/2 request sent as HTTP/1.1 means the same if and only if it has no query, no path escape that is needed, a host field or a host without escapes, and a content-length when there is content; an HTTP/2 response if and only if its code has a phrase, it has content only where one is allowed, and its content-length, if any, is right.", "quantifier": "every conforming HTTP/1 request and response that the crate reads, with any fields, target and content; every conforming HTTP/2 header list that it reads, with any content", "why_tests_cant": "targets, fields and contents are unbounded, and the receiver of what is sent is any implementation of RFC 9112, which may cut the octets in any way that the grammar allows", "anchors": ["src/http/request.rs: Request::parse, Request::http1_data, Request::encode_header", "src/http/response.rs: Response::parse, Response::httpdata, Response::encode_header", "src/http/http2/frame/headers.rs: Headers::into_request, Headers::into_response", "src/helper.rs: Helper::parse_chunk_data"]}
{"id": "C123", "title": "A message that is received and sent on as HTTP/2 is the message that was received", "statement": "A conforming HTTP/1 request in origin form that is read and whose fields are sent behind the pseudo header fields that Parts::request and encode_header make of its method and URL is a conforming HTTP/2 request with the same method and fields for the same path, query and host if and only if it has no query, no path escape that is needed, exactly one Host field without a port, no field that belongs to the connection, and no field whose name compares equal to that of a pseudo header field; a proxy request in absolute form likewise, if its scheme is http or https with the port of the scheme and the Host field, if any, is the host. An HTTP/2 request sent on as HTTP/2 is the same request if and only if it has a host field, no port, no query, and no escape that is needed. A response of HTTP/1 stays the same if and only if it has no field that belongs to the connection and none whose name compares equal to :status, one of HTTP/2 always.", "quantifier": "every conforming HTTP/1 request and response that the crate reads, with any fields, target and content; every conforming HTTP/2 header list that it reads", "why_tests_cant": "targets and fields are unbounded, and the names that compare equal to a pseudo header field although they differ are found only by looking at the comparison for all octets", "anchors": ["src/http/request.rs: Request::parse", "src/http/response.rs: Response::parse", "src/http/http2/frame/headers.rs: Parts::request, Parts::response, Parts::encode_header, Headers::into_request, Headers::into_response", "src/http/header.rs: HeaderMap::insert", "src/helper.rs: Helper::eq_bytes_ignore_ascii_case"]}
{"id": "C124", "title": "A frame of HTTP/2 that is received and sent on is the frame that was received", "statement": "A conforming DATA, PRIORITY, RST_STREAM, SETTINGS, PING, GOAWAY or WINDOW_UPDATE frame that is read as what it means, written again for any receiver with any frame size limit that RFC 9113 allows, tells that receiver the same frame if and only if it is not PRIORITY, it is not DATA with the flag PADDED, and, for GOAWAY, it is not longer than that limit. A HEADERS frame without padding and priority that is read, written again, tells the receiver the same if and only if it has no pseudo header fields, no field is called \"accept-\", every frame that is made is short enough, and there is only one if the stream ends with it.", "quantifier": "every conforming frame that the crate reads, every receiver with its frame size limit, and every state of the compression tables", "why_tests_cant": "payloads, tables and limits are unbounded, and the receiver is any implementation of RFC 9113", "anchors": ["src/http/http2/frame/frame.rs: Frame::parse, Frame::encode", "src/http/http2/frame/data.rs: Data::encode", "src/http/http2/frame/headers.rs: Headers::encode", "src/http/http2/frame/priority.rs: Priority::encode", "src/http/http2/frame/go_away.rs: GoAway::encode"]}
{"id": "C125", "title": "What is received on a WebSocket connection and sent on over another one tells the same messages", "statement": "Whatever octets are received as messages without an error, writing these messages, each with a key or without one, does not fail, and what is written tells these messages and no others, in the role of a client or of a server, if and only if the keys are those of the role, no message has 2^63 octets or more, all close codes are such as may be sent, and no data follows a close. Frame by frame, writing what was read does not fail either, and what is written tells messages if and only if the keys are those of the role and what was read told them, the masks apart; so all that a client may say to a server is told again by that server as a client of the next one.", "quantifier": "every sequence of octets received, every choice of keys, and both roles", "why_tests_cant": "sequences of frames, fragments and payloads are unbounded, and the reader at the other end is any implementation of RFC 6455", "anchors": ["src/ws/dataframe.rs: DataFrame::read_dataframe, DataFrameable::write_to", "src/ws/message.rs: OwnedMessage::from_dataframes", "src/ws/mask.rs: mask_data"]}
{"id": "C126", "title": "A URL that is parsed and shown again is the same URL", "statement": "A URI of RFC 3986 that is parsed as what it means, and shown again, means the same to every reader of RFC 3986 if and only if, all escapes undone, its host is a host without '%', its user has none of ':', '@', '/' and '?', its password none of '@', '/' and '?', and its path no '?'. It is parsed by the crate to the same URL again if and only if, all escapes undone, its host has only visible characters other than ':', '@', '/', '?' and '%', user and password have none of ':', '@', '/' and '?', its path neither '@' nor '?', and its query no '@'.", "quantifier": "every URI of RFC 3986 that the crate parses as meant, and every text that it parses at all", "why_tests_cant": "the texts are unbounded, every delimiter can be escaped in every part, and the other reader is any implementation of RFC 3986", "anchors": ["src/url/url.rs: Url::parse, Display for Url", "src/url/url.rs: Url::url_encode, Url::url_decode"]}
{"id": "C127", "title": "Header blocks that are received and sent on: which fields arrive, and what becomes of the marks for secret ones", "statement": "The fields of a header block of RFC 7541 that is received, encoded for another connection, are the same fields to every reader of RFC 7541 if and only if, for names that HTTP/2 allows, none of them is called \"accept-\"; for other names, if and only if the entry of the table that is found for each field has its name. Fields that the sender marked as never to be put into a table are marked again if and only if there are none: the encoder marks nothing, so that credentials that came marked are put into the tables of the encoder and of the next hop.", "quantifier": "every header block, every state of the tables of both connections, and every reader of RFC 7541", "why_tests_cant": "blocks and tables are unbounded, and the next hop is any implementation of RFC 7541", "anchors": ["src/http/http2/hpack/encoder.rs: Encoder::encode_header_into", "src/http/http2/hpack/decoder.rs: Decoder::decode_with_cb"]}
{"id": "C128", "title": "Chunked bodies that are received and sent on", "statement": "A relay that takes the blocks of a chunked body with parse_chunk_data and writes each with encode_chunk_data sends on a body of RFC 9112 in its shortest form with the blocks that it read, whatever octets it accepted; a second relay changes nothing more. The octets of a conforming body stay the same, and exactly they are taken, if and only if there are no extensions and no trailer fields and the sizes are written in small letters without zeros in front; without extensions and trailer fields the blocks always stay the same. Bodies with extensions are not sent on; trailer fields are not sent on but left in front of the next message, where one can be read as a request that nobody sent.", "quantifier": "every chunked body, all octets that are accepted, and everything that may follow", "why_tests_cant": "bodies are unbounded in the number and size of their blocks, and sizes can be written in many ways", "anchors": ["src/helper.rs: Helper::parse_chunk_data, Helper::encode_chunk_data"]}
{"id": "C129", "title": "HTTP/2 connections through any number of intermediaries", "statement": "SETTINGS, PING, RST_STREAM, WINDOW_UPDATE, GOAWAY, DATA, requests and responses that are sent over a row of connections, each with its own frame size, limit and compression tables, and at the end of each but the last received by a relay that sends on what the received frames show, reach the last receiver complete and in order, exactly as over a single connection: every message with the same method, scheme, authority, path, status and fields, the octets and the end of every stream as they were sent first, however often the data was cut, and nothing else. A relay that writes the received frames themselves loses the pseudo header fields.", "quantifier": "every number of connections, every state of their tables, every sequence of items, frame size and limit under which each connection can carry them", "why_tests_cant": "the number of relays, the length of the traffic and the histories of the tables are unbounded", "anchors": ["src/http/http2/frame/frame.rs: Frame::parse, Frame::encode", "src/http/http2/frame/headers.rs: Headers", "src/http/http2/frame/data.rs: Data", "src/http/http2/hpack/decoder.rs: Decoder", "src/http/http2/hpack/encoder.rs: Encoder"]}
{"id": "C130", "title": "HTTP/1 connections through any number of intermediaries", "statement": "Requests written one after the other, and sent on by any number of relays, each of which parses them, takes the bodies as the headers announce, and writes them again with http1_data with the same framing, reach the last receiver complete and in order, with method, version, path, headers and content, exactly as from the first sender, if their targets have no query and need no escapes; responses with registered codes always do. Exactly: a request that was received passes one relay unchanged, and then any number, if and only if the path that was received needs no escapes and makes, with the headers, the URL that was received. Otherwise the escapes of a path are resolved once more at each relay, so that each asks for another resource, the query is lost at the first, or the request becomes unreadable.", "quantifier": "every number of relays and every sequence of requests and responses without body, with a length or chunked", "why_tests_cant": "the number of relays, the number of messages and the size of bodies are unbounded", "anchors": ["src/http/request.rs: Request::http1_data, Request::parse_buffer", "src/http/response.rs: Response::httpdata, Response::parse_buffer", "src/helper.rs: Helper::parse_chunk_data, Helper::encode_chunk_data", "src/http/header.rs: HeaderMap::is_chunked, HeaderMap::get_body_len"]}
{"id": "C131", "title": "WebSocket connections through any number of intermediaries", "statement": "Over any row of intermediaries, each of which receives whole messages, or single frames, and writes them again with keys of its own or none, no one fails, and the last receiver takes exactly the messages that the first one takes: texts, data, pings, pongs and closes with codes and reasons, in order. What a client or a server may say by RFC 6455 is, behind the last one, what a client or a server may say, according to the keys of the last one only. If all send on single frames, the last receiver takes the same frames, with fragments and reserved bits. By contrast an intermediary that sends on messages joins fragments, and passes no frame with a reserved bit.", "quantifier": "every number and mixture of intermediaries, all keys, and all octets that are received as messages of less than 2^64 octets (2^63 for what may be said)", "why_tests_cant": "the number of intermediaries, of messages and of fragments and their lengths are unbounded", "anchors": ["src/ws/dataframe.rs: DataFrame::read_dataframe", "src/ws/message.rs: OwnedMessage::from_dataframes", "src/ws/mod.rs", "src/ws/mask.rs: mask_data"]}
{"id": "C132", "title": "Messages through any row of gateways over HTTP/1 and HTTP/2", "statement": "Over any row of connections, in any order HTTP/1 or HTTP/2, between gateways that each receive a message and send it on, a request for http://d/path (a path without escapes, no query, no port; Host names d; fields that both protocols allow; the content that its length says) arrives with its method, URL, version and content, and with exactly its header if no connection is HTTP/2, else with the Host field first and the others in their order with names in lower case, independent of how many gateways there are and where. A response with a known status code arrives with its code and content, and its header or that with names in lower case. By contrast the scheme https is lost behind HTTP/1; and a field whose name only compares equal to content-length (contentMlength) is a length over HTTP/1 but not behind HTTP/2, so that its content is then read as another request.", "quantifier": "every row of HTTP/1 and HTTP/2 connections with limits for header lists that the message meets, all such requests and responses, with content of less than 2^63 octets", "why_tests_cant": "the row of gateways, the fields and the content are unbounded, and the orders of the protocols are exponentially many", "anchors": ["src/http/request.rs: Request::http1_data", "src/http/request.rs: Request::parse", "src/http/response.rs: Response::parse", "src/http/header.rs: HeaderMap::get_body_len", "src/http/name.rs: HeaderName (PartialEq)", "src/http/http2/hpack/encoder.rs: Encoder::encode", "src/http/http2/frame/headers.rs: Headers::into_request"]}
{"id": "C133", "title": "References, as in redirects, merged into a URL", "statement": "Let a URL be that of a base URI with an authority. Merging into it what is parsed from a reference gives the URL of what RFC 3986 section 5.2 resolves the reference to, for a reference that begins with one '/', exactly if it is read (no '@', escapes of UTF-8), has no segment '.' or '..', leads to '/' only from there, and has a query if the base has one; for a URI that is read as it means, exactly if the same holds and it has user information if the base has it, and a port other than 0 or the base has none. By contrast a reference that begins with '//' is taken for a path at the host of the base, whatever host it names; relative paths, queries alone and the empty reference are not read at all; and the query of the base, with what is secret in it, goes along to another path or server.", "quantifier": "every base URI with its URL, and every reference of the five kinds of RFC 3986 (without fragments), of any length", "why_tests_cant": "bases and references are of unbounded length and number of segments, and the claim is an equivalence for each kind", "anchors": ["src/url/url.rs: Url::merge", "src/url/url.rs: Url::parse"]}
{"id": "C134", "title": "Packets", "statement": "A receiver that keeps the octets it could not use yet, puts each packet behind them and reads as long as it can, receives the same whatever packets the octets come in: for HTTP/1 requests and responses with bodies of known length or in chunks, WebSocket frames with or without a limit, and HTTP/2 frames with the table of the decoder, the same messages are delivered in the same order, with the same octets kept and the same table, or the same error ends the connection; and it is the same as if all octets had come at once. What was delivered is the beginning of what is delivered when more comes. For HTTP/2 the reader answers Short exactly when the frame is not complete.", "quantifier": "all sequences of packets of any number and size, empty ones included, with any octets in them, right or wrong; every table of an HTTP/2 decoder and every limit", "why_tests_cant": "n octets can be divided in 2^(n-1) ways, and the octets are any", "anchors": ["src/http/request.rs: Request::parse_buffer", "src/http/response.rs: Response::parse_buffer", "src/helper.rs: Helper::parse_chunk_data", "src/ws/dataframe.rs: DataFrame::read_dataframe_body, read_dataframe_with_limit", "src/http/http2/frame/frame.rs: FrameHeader::parse, Frame::parse"]}
{"id": "C135", "title": "Delivery over a network", "statement": "One side writes HTTP/1 requests or responses with their bodies, HTTP/2 items on any streams, or WebSocket messages in any fragments and with any masks; the octets travel in order, in packets of any size, and the network may fail at any point. As long as octets are missing, the receiver's connection is open without an error, and what was delivered is the beginning of what was sent, and not all of it. When all are there, exactly what was sent has been delivered, in order, and no octets are left over; encoder and decoder of HTTP/2 are in step. When other octets follow, right or wrong, they change nothing of what was sent before.", "quantifier": "all lists of messages of any length that follow the rules of the protocol, all divisions into packets, all points of failure, all octets that follow, every limit of a WebSocket receiver that the frames keep to", "why_tests_cant": "lists of messages, divisions and points of failure are unbounded, and hold together", "anchors": ["src/http/request.rs: Request::http1_data, parse_buffer", "src/http/response.rs: Response::httpdata, parse_buffer", "src/http/http2/frame/frame.rs: Frame::encode, Frame::parse", "src/ws/dataframe.rs: DataFrame::read_dataframe, read_dataframe_with_limit", "src/ws/message.rs: OwnedMessage::from_dataframes"]}
{"id": "C136", "title": "The named header fields", "statement": "Each of the 81 constants of HeaderName is the field its identifier spells (lower case, '-' for '_'), different constants are different fields, and all are legal in HTTP/1 and HTTP/2. In a header map a constant finds a field name exactly if it is the constant in any letter case, where an 'M' may also stand for a '-'; so constants without '-' find themselves only, every other finds some foreign name too, but no name is found by two constants. In every map, calls that name other constants never change what a constant finds; and in maps that were received as HTTP/1 or made with calls that name fields, the constants are independent variables: what one finds after any calls is what the calls that name it make of what it found before. from_bytes gives the constant for exactly its octets, and keeps every other text.", "quantifier": "all constants and pairs of them, all field names, all maps (also ones with entries that only look like a constant) and all sequences of insert, push, remove, clear and index assignment", "why_tests_cant": "maps, foreign names and sequences of calls are unbounded, and with each of 81 times 81 pairs a confusion is possible", "anchors": ["src/http/name.rs: standard_headers!, HeaderName::from_bytes, PartialEq for HeaderName", "src/http/header.rs: HeaderMap::insert, push, remove, get_option_value, IndexMut", "src/helper.rs: Helper::eq_bytes_ignore_ascii_case"]}
{"id": "C137", "title": "What can stop a receiver", "statement": "For whole connections, in whichever packets the octets arrive: a receiver of HTTP/1 requests or responses panics exactly if, after the messages it delivers, comes a message with a good head and a body of one of two kinds: without chunking, a content-length one of whose beginnings has the absolute value 2^63 or 2^63+1; with chunking, whole chunks and then a chunk size that (with the two octets of its end) does not fit in 64 bits. It never loops without end. A receiver of WebSocket frames or messages, with a limit or not, is never stopped by a panic or a loop. A receiver of HTTP/2 frames, with any history of its decoder, panics exactly if after the frames it delivers comes a DATA frame on stream 0, and loops without end exactly if the next is a HEADERS frame whose block hangs at that state of the table.", "quantifier": "all sequences of packets with all octets, all numbers of messages or frames delivered before, all histories of the HPACK decoder, all limits", "why_tests_cant": "that these are all the ways to stop a receiver ranges over all octets and histories; a fuzzer finds only some of them", "anchors": ["src/http/request.rs: Request::parse_buffer, get_body_len", "src/http/response.rs: Response::parse_buffer", "src/helper.rs: Helper::parse_chunk_data", "src/http/header.rs: HeaderMap::get_body_len", "src/ws/dataframe.rs: DataFrame::read_dataframe_body, read_dataframe_with_limit", "src/ws/message.rs: Message::from_dataframes", "src/http/http2/frame/frame.rs: FrameHeader::parse, Frame::parse", "src/http/http2/hpack/decoder.rs: Decoder::decode"]}
{"id": "C138", "title": "How much a receiver can be made to keep", "statement": "The octets that a receiver holds because they belong to nothing complete yet: for HTTP/2, with any decoder table and header limit, a peer can bring it to hold n octets exactly if n <= 2^24 + 7 (the largest frame less one octet), whatever max_frame_size was announced. For WebSocket the limit given to the reader bounds it: n octets can be held exactly if n is at most the larger of 13 and the longest masked frame within the limit less one octet, so never more than the limit and 13; without a limit, up to 2^64 + 12. For HTTP/1 there is no bound: for every n a receiver holds n octets of a request, and of a response, that is still delivered when the rest arrives. The WebSocket limit is one of a frame: with any limit but 0, the fragments of a message that is not finished can have any size together.", "quantifier": "all sequences of packets with all octets, all states of the decoder, all limits, all numbers n", "why_tests_cant": "a bound is a statement about all octets a hostile peer may send; and that there is no bound is one about all sizes", "anchors": ["src/http/request.rs: Request::parse_buffer", "src/http/response.rs: Response::parse_buffer", "src/ws/dataframe.rs: DataFrame::read_dataframe_with_limit, read_dataframe_body", "src/ws/frame_header.rs: WsFrameHeader::parse", "src/ws/message.rs: Message::from_dataframes", "src/http/http2/frame/frame.rs: FrameHeader::parse, Frame::parse"]}
{"id": "C139", "title": "Every octet belongs to one message", "statement": "What arrives on a connection, in any packets, is divided in exactly one way: each delivered message (a request or response with its body, a WebSocket frame or the step it makes in a message, an HTTP/2 frame) owns a text of consecutive octets, in order and without gaps or overlaps, such that this text alone, given to the reader in the state it then has, gives that same message and leaves nothing; behind them come the octets kept, on which the reader waits, or the octets it refuses. Conversely each such division is what the receiver delivers. No text of a message is the beginning of another one, so the same octets cannot be read as the same number of messages in two ways.", "quantifier": "all sequences of packets with all octets, all numbers of messages, all tables of an HTTP/2 decoder and all limits", "why_tests_cant": "request smuggling is an octet that counts for two messages or for none; that there is none such ranges over all inputs and all divisions of them", "anchors": ["src/http/request.rs: Request::parse_buffer", "src/http/response.rs: Response::parse_buffer", "src/helper.rs: Helper::parse_chunk_data", "src/ws/dataframe.rs: DataFrame::read_dataframe_body, read_dataframe_with_limit", "src/http/http2/frame/frame.rs: FrameHeader::parse, Frame::parse"]}
{"id": "C140", "title": "A stream does not depend on the schedule of the streams", "statement": "If any number of HTTP/2 streams, each with its requests, responses, data, resets and window updates (and the frames of the connection itself), are sent on one connection in any order that keeps the order within each stream, then everything is sent, and a receiver that gets the octets in any packets finds on each stream exactly what was sent on it, in order, with the same data octets and the same end, although all streams share one compression table whose content depends on the order. Two orders give each stream the same data and end.", "quantifier": "all numbers of streams, all items on each, all schedules of them, all divisions into packets, all table sizes", "why_tests_cant": "the number of schedules grows exponentially with the frames, and each gives other compression tables and other octets", "anchors": ["src/http/http2/frame/headers.rs: Headers::encode, Headers::parse", "src/http/http2/hpack/encoder.rs: Encoder::encode_header_into", "src/http/http2/hpack/decoder.rs: Decoder::decode_with_cb", "src/http/http2/frame/frame.rs: FrameHeader::parse, Frame::parse"]}
