{"id": "C01", "title": "parse_sdp never panics", "statement": "parse_sdp returns Ok or Err and never panics, on any input text shorter than 2^31 characters, in strict and in lenient mode, and so does parse_sdp_line on any single line. (Without the length bound the claim is false in a debug build: the bracket counter of imageattr is an i32.)", "quantifier": "all strings shorter than 2^31 chars, both values of fail_on_warning; for the negative part, one constructed longer string", "why_tests_cant": "Fuzzing samples finitely many strings; indexing, slicing, unwrap and counter overflow must be safe for every one of them.", "anchors": ["src/lib.rs: parse_sdp, parse_sdp_line, parse_sdp_vector", "src/attribute_type.rs: parse_attribute and every parse_* it dispatches to, parse_imageattr_tokens, parse_image_set_list", "src/media_type.rs: parse_media, parse_media_vector"]}
{"id": "C02", "title": "Strict and lenient mode agree", "statement": "Strict parsing (fail_on_warning = true) succeeds exactly when lenient parsing succeeds with an empty warning list, and then both return the same session; if the lenient session has warnings, strict mode returns its first warning as the error; if no line is unsupported both modes return the same error.", "quantifier": "all input strings", "why_tests_cant": "A relation between two runs on the same arbitrary input; tests check it for a handful of documents.", "anchors": ["src/lib.rs: parse_sdp"]}
{"id": "C03", "title": "Warnings are exactly the unsupported lines", "statement": "When parse_sdp succeeds, the session's warnings are, in input order and without omission, the Unsupported results of the individual non-blank lines, each carrying the line's verbatim text and its 0-based index; every other non-blank line parses without error on its own.", "quantifier": "all input strings accepted in lenient mode", "why_tests_cant": "Completeness and order must hold for any number and position of unsupported lines.", "anchors": ["src/lib.rs: parse_sdp, parse_sdp_line, SdpSession.warnings", "src/error.rs: SdpParserError::Unsupported"]}
{"id": "C04", "title": "Which error is reported", "statement": "For input of at least 51 bytes: if strict and some line is Unsupported, the error is that of the first such line; otherwise if some line fails to parse, the error is that of the last failing line, with its verbatim text and index; only if every line parses can the error be a Sequence error. Shorter input is rejected as a whole with line number 0.", "quantifier": "all input strings and both modes", "why_tests_cant": "The choice among several bad lines depends on their order in arbitrary documents.", "anchors": ["src/lib.rs: parse_sdp", "src/error.rs: SdpParserError"]}
{"id": "C05", "title": "Line ends and blank lines do not matter", "statement": "Replacing LF line ends by CRLF or back, and inserting or deleting whitespace-only lines, does not change the parsed session or the error, except for the line numbers recorded in warnings and errors (and the 51-byte minimum).", "quantifier": "all sequences of lines, any placement of blank lines, any mix of line ends", "why_tests_cant": "A metamorphic claim over arbitrary documents.", "anchors": ["src/lib.rs: parse_sdp"]}
{"id": "C06", "title": "Accepted sessions satisfy the structural rules", "statement": "If parse_sdp succeeds, the session has a timing; it has a session-level connection or every media section has one; extmap does not occur both at session level and in a media section; a media section with rtcp-mux-only has rtcp-mux; every payload type named by a rid is in the section's format list; every id in the section's first simulcast attribute is the id of a rid of the matching direction in that section. Conversely a document whose lines all parse and are in legal order is rejected with a Sequence error if one of these is violated.", "quantifier": "all input strings", "why_tests_cant": "An invariant of all reachable results.", "anchors": ["src/lib.rs: sanity_check_sdp_session, parse_sdp_vector"]}
{"id": "C07", "title": "Attributes only occur at levels where they are allowed", "statement": "In an accepted session every session attribute is one of the 18 kinds allowed at session level and every media attribute is one of the 37 kinds allowed at media level; a line with another kind at that level makes parsing fail with a Sequence error naming that line, except dtls-message in a media section, which is silently ignored.", "quantifier": "all input strings; all attributes", "why_tests_cant": "Must hold for all 43 kinds at all positions in all documents.", "anchors": ["src/attribute_type.rs: SdpAttribute::allowed_at_session_level, allowed_at_media_level", "src/lib.rs: SdpSession::add_attribute", "src/media_type.rs: SdpMedia::add_attribute, parse_media_vector"]}
{"id": "C08", "title": "Lines are assembled into sections completely and in order", "statement": "For a document whose lines all parse, the session consists of: version, origin and name of the first three lines; then, from the lines before the first m= line, all bandwidths and attributes in order; then one media section per m= line, in order, with that m= line and all bandwidths, the connection and all attributes (minus dtls-message) of the lines up to the next m= line, in order. Nothing is duplicated, reordered, moved between sections or dropped.", "quantifier": "all sequences of parsed lines", "why_tests_cant": "Full functional specification for documents of any length.", "anchors": ["src/lib.rs: parse_sdp_vector, SdpSession::parse_session_vector", "src/media_type.rs: parse_media_vector"]}
{"id": "C09", "title": "Repeated t= and c= lines", "statement": "At session level the last t= line and the last c= line win; in a media section a second c= line is rejected with a Sequence error carrying that line's number; t=, v=, o= and s= lines after the first m= line are rejected likewise.", "quantifier": "all sequences of parsed lines", "why_tests_cant": "Any number of repetitions at any position.", "anchors": ["src/lib.rs: SdpSession::parse_session_vector, set_timing, set_connection", "src/media_type.rs: parse_media_vector"]}
{"id": "C10", "title": "Session round trip", "statement": "Printing an accepted session and parsing the text gives the same session with no warnings, provided the printed text reaches the 51-byte minimum and no attribute is one of an explicitly listed set of lossy values; these conditions are also necessary (NaN apart, which is not equal to itself), and for each listed exception there is an accepted document that does not survive.", "quantifier": "all accepted input strings", "why_tests_cant": "Printing and parsing must be inverse on an infinite set of sessions.", "anchors": ["src/lib.rs: parse_sdp, Display for SdpSession", "src/media_type.rs: Display for SdpMedia", "src/attribute_type.rs: Display and FromStr for SdpAttribute"]}
{"id": "C11", "title": "Attribute round trip", "statement": "For every attribute value of each of the 43 kinds that satisfies an explicit well-formedness condition on its fields, parsing its printed form gives the same value back.", "quantifier": "all well-formed attribute values", "why_tests_cant": "Each kind has infinitely many values; printing omits defaults and parsing is case- and whitespace-tolerant, so round-tripping is not syntactically evident.", "anchors": ["src/attribute_type.rs: Display and FromStr for SdpAttribute"]}
{"id": "C12", "title": "Parsed attributes are well-formed", "statement": "Every attribute produced by the parser satisfies the well-formedness condition of the round trip unless it is one of the explicitly listed lossy values; hence parsing what was printed is the identity on parser output and printing is idempotent. A listed lossy value (NaN apart) is never read back from its printed line.", "quantifier": "all attribute lines accepted by the parser", "why_tests_cant": "A statement about the full range of the parser.", "anchors": ["src/attribute_type.rs: FromStr for SdpAttribute, parse_attribute"]}
{"id": "C13", "title": "IPv4 and IPv6 text round trip", "statement": "For every 32-bit IPv4 and 128-bit IPv6 address the printed text parses back to the same address and family, and different addresses have different texts.", "quantifier": "all 2^32 IPv4 and 2^128 IPv6 addresses", "why_tests_cant": "2^128 values; zero compression and IPv4-mapped forms have many special cases.", "anchors": ["src/address.rs: Display/FromStr for Address", "src/network.rs: ip_address_to_string", "std::net (modelled)"]}
{"id": "C14", "title": "Integers are read exactly", "statement": "A numeric field is accepted exactly when it is a non-empty string of decimal digits, optionally preceded by one '+', whose value fits the field's type, and the stored value is that value; printing and re-reading any in-range integer gives it back.", "quantifier": "all strings; all integers", "why_tests_cant": "All digit strings of any length, including overflow boundaries and leading zeros.", "anchors": ["src/lib.rs: parse_version, parse_timing", "src/attribute_type.rs: parse::<u8/u16/u32/u64> call sites", "src/media_type.rs: parse_media"]}
{"id": "C15", "title": "Case insensitivity of names", "statement": "Changing the case of ASCII letters in the line type, the attribute name, the network and address type, the media type, the protocol or the other case-insensitive keywords does not change what a line parses to.", "quantifier": "all lines, all case changes of the keyword", "why_tests_cant": "Exponentially many spellings for each line.", "anchors": ["src/lib.rs: parse_sdp_line, parse_bandwidth", "src/attribute_type.rs: FromStr for SdpAttribute", "src/media_type.rs: parse_media_token, parse_protocol_token", "src/network.rs: parse_network_type, parse_address_type"]}
{"id": "C16", "title": "Exactly which m= lines are accepted", "statement": "An m= value is accepted exactly when it has at least four whitespace-separated tokens: audio, video or application; a port at most 65535, optionally followed by '/' and a port count; a known protocol; and, for audio and video, payload types that are below 128 and not 1, 2, 19 or 64-95. The parsed line carries exactly these values.", "quantifier": "all strings", "why_tests_cant": "Acceptance and rejection over an infinite language.", "anchors": ["src/media_type.rs: parse_media, parse_media_token, parse_protocol_token"]}
{"id": "C17", "title": "Numeric fields are in range", "statement": "In every accepted session every number lies within its Rust type and documented limit: ports of candidates, remote candidates, sctp-port and media lines at most 65535, rtpmap payload types at most 127, fmtp profile-level-id at most 0xffffff, packetization-mode at most 2, profile, level-idx and tier at most 2, 31 and 1, RED codecs at most 128, ice-pacing below 10^10, framerate finite, non-zero and not NaN.", "quantifier": "all input strings", "why_tests_cant": "An invariant over all accepted documents.", "anchors": ["src/attribute_type.rs: parse_candidate, parse_rtpmap, parse_fmtp, parse_sctp_port, parse_ice_pacing, parse_framerate", "src/media_type.rs: parse_media"]}
{"id": "C18", "title": "Fingerprints have the length of their hash", "statement": "A fingerprint is accepted exactly when its hash name is known and it has as many colon-separated two-byte tokens, each readable as a hexadecimal byte, as the hash has octets (20, 28, 32, 48, 64); printing gives upper-case hex that parses back. (Finding: tokens like \"+A\" are accepted as a byte.)", "quantifier": "all strings", "why_tests_cant": "All byte sequences for five hash functions.", "anchors": ["src/attribute_type.rs: parse_fingerprint, SdpAttributeFingerprintHashType::parse_octets, octet_count"]}
{"id": "C19", "title": "imageattr tokens respect brackets", "statement": "Splitting an imageattr value into tokens loses nothing: joining the tokens with the separator gives back the value's prefix up to the last position where brackets are balanced, each token is bracket-balanced (each piece between separators counts as opening if it contains '[' and as closing if it contains ']', so by characters when no piece has two brackets of a kind; not by characters in general), and a value without brackets is split at every separator.", "quantifier": "all strings and both separators", "why_tests_cant": "Arbitrary nesting and length.", "anchors": ["src/attribute_type.rs: parse_imageattr_tokens"]}
{"id": "C20", "title": "Telephone-event tones", "statement": "The tone list stored for an fmtp without '=' and '/' is the input text if it is a comma-separated list of numbers up to 100 or ascending ranges of such numbers, and the default 0-15 otherwise.", "quantifier": "all strings", "why_tests_cant": "Infinite language of tone lists.", "anchors": ["src/attribute_type.rs: parse_fmtp"]}
{"id": "C21", "title": "fmtp parameters", "statement": "In an fmtp parameter list each recognised parameter takes the value of its last occurrence and is at its default if absent, the order of distinct recognised parameters does not matter, unrecognised parameters are kept verbatim in order, and rtx-time requires an earlier apt.", "quantifier": "all parameter lists", "why_tests_cant": "All permutations and repetitions of 24 parameters.", "anchors": ["src/attribute_type.rs: parse_fmtp, SdpAttributeFmtpParameters"]}
{"id": "C22", "title": "Media API: attributes obey level and lookup laws over any history", "statement": "For a media section built by SdpMedia::new and any sequence of API calls: all attributes are allowed at media level; add_attribute appends or fails without effect; remove_attribute(t) removes exactly the attributes of type t; after a successful set_attribute(a) the section has exactly one attribute of a's type, and it is a; a failed set_attribute leaves the section unchanged; get_attribute returns the first of get_attributes_of_type, which preserves order.", "quantifier": "all finite sequences of API calls with all arguments", "why_tests_cant": "Histories of unbounded length.", "anchors": ["src/media_type.rs: SdpMedia::add_attribute, remove_attribute, set_attribute, get_attribute, get_attributes_of_type"]}
{"id": "C23", "title": "Media API: codecs", "statement": "remove_codecs empties the format list keeping its kind and removes exactly the rtpmap, fmtp, rtcp-fb, sctpmap and sctp-port attributes, leaving the others in order; add_codec appends the payload type to the formats and the rtpmap to the attributes and cannot fail; adding codecs to a cleared section yields formats equal to the payload types of its rtpmaps in order, over any sequence of codec operations.", "quantifier": "all media sections and all sequences of codec operations", "why_tests_cant": "Consistency of formats and rtpmaps over unbounded histories.", "anchors": ["src/media_type.rs: SdpMedia::remove_codecs, add_codec"]}
{"id": "C24", "title": "Media API: add_datachannel", "statement": "After add_datachannel the section is an application section with exactly one sctp-port (for UDP/DTLS/SCTP and TCP/DTLS/SCTP, format list = the name) or exactly one sctpmap (otherwise, format list = the port), carrying the given values, and exactly one max-message-size with the given value if it is positive; all other attributes are unchanged; it cannot fail. (Finding: with size 0 a stale max-message-size stays.)", "quantifier": "all media sections and arguments", "why_tests_cant": "All prior histories of the section.", "anchors": ["src/media_type.rs: SdpMedia::add_datachannel"]}
{"id": "C25", "title": "Session API: add_media and add_attribute are all-or-nothing", "statement": "add_media either appends exactly one media section with the given type, port, protocol, direction and address, or fails and leaves the session unchanged; it fails exactly when the direction attribute is not allowed at media level. add_attribute behaves likewise for session-level attributes. Sessions built by any sequence of API calls only hold attributes legal at their level.", "quantifier": "all sessions and arguments, all call sequences", "why_tests_cant": "Unbounded histories; failure atomicity.", "anchors": ["src/lib.rs: SdpSession::add_media, add_attribute, extend_media"]}
{"id": "C26", "title": "Anonymizer is stable", "statement": "Within one anonymizer, over any history of masking calls of any kind, masking the same value of the same kind always yields the same result.", "quantifier": "all finite histories of mask_* and masked_clone calls", "why_tests_cant": "Histories of unbounded length.", "anchors": ["src/anonymizer.rs: StatefulSdpAnonymizer, AnonymizationStrMap"]}
{"id": "C27", "title": "Anonymizer is injective", "statement": "Within one anonymizer, distinct host names, users, passwords, cnames, ports and IP addresses get distinct masks, as long as fewer distinct values than the counter's range have been masked. (For certificate fingerprints this fails, see the refutation.)", "quantifier": "all finite histories of masking calls below counter wrap-around", "why_tests_cant": "Needs all pairs of values in all histories.", "anchors": ["src/anonymizer.rs: mask_host, mask_ip, mask_port, mask_origin_user, mask_ice_password, mask_ice_user, mask_cname"]}
{"id": "C28", "title": "Anonymizer: fingerprint masks are distinct", "statement": "Distinct certificate fingerprints get distinct masks. REFUTED: only the low byte of the counter reaches the mask, so the 257th fingerprint gets the mask of the first; up to 255 fingerprints the masks are distinct.", "quantifier": "all histories; witness of 257 fingerprints", "why_tests_cant": "Unit tests mask one or two fingerprints.", "anchors": ["src/anonymizer.rs: mask_cert_finger_print, ToBytesVec for u64"]}
{"id": "C29", "title": "Anonymizer preserves kind and family", "statement": "Masking keeps IPv4 an IPv4, IPv6 an IPv6 and a host name a host name with its declared address type; masked names are the fixed prefix followed by a number of at least 8 digits.", "quantifier": "all values and all anonymizer states reachable from new()", "why_tests_cant": "All histories.", "anchors": ["src/anonymizer.rs: mask_ip, mask_address, mask_typed_address, AnonymizationStrMap::mask"]}
{"id": "C30", "title": "Masked output reveals only equality of the masked fields", "statement": "The result of masking an attribute, origin, connection or session does not depend on the masked values themselves, only on which of them are equal: replacing them by an injective renaming gives the same masked result.", "quantifier": "all values, all injective renamings, all histories", "why_tests_cant": "A two-run (non-interference) property.", "anchors": ["src/anonymizer.rs: StatefulSdpAnonymizer", "src/attribute_type.rs: masked_clone", "src/lib.rs: masked_clone"]}
{"id": "C31", "title": "masked_clone changes only sensitive fields", "statement": "masked_clone of an attribute keeps its kind and every field other than candidate/remote-candidate addresses and ports, fingerprint bytes, ice-pwd, ice-ufrag and ssrc cname values; of an origin or connection every field other than user name and address; attribute lists keep length and order.", "quantifier": "all values and anonymizer states", "why_tests_cant": "All values of all kinds.", "anchors": ["src/attribute_type.rs: AnonymizingClone impls", "src/lib.rs: AnonymizingClone impls", "src/media_type.rs: AnonymizingClone for SdpMedia"]}
{"id": "C32", "title": "masked_clone of a session keeps its media sections", "statement": "SdpSession::masked_clone returns a session with the same number of media sections. REFUTED: the clone has no media sections at all.", "quantifier": "all sessions; witness", "why_tests_cant": "The existing test re-adds the media by hand.", "anchors": ["src/lib.rs: AnonymizingClone for SdpSession"]}
{"id": "C33", "title": "masked_clone of a media section hides its addresses", "statement": "Every IP address occurring in SdpMedia::masked_clone is a mask. REFUTED: the c= address of the section and the address of a=rtcp are copied.", "quantifier": "all media sections; witness", "why_tests_cant": "No test covers c= in a masked media section.", "anchors": ["src/media_type.rs: AnonymizingClone for SdpMedia", "src/attribute_type.rs: AnonymizingClone for SdpAttribute"]}
{"id": "C34", "title": "Address equality is an equivalence", "statement": "Equality of addresses and of explicitly typed addresses is reflexive, symmetric and transitive, ignores ASCII case in domain names, and never identifies an IP with a name or two different IPs; conversion from a typed address respects it.", "quantifier": "all addresses", "why_tests_cant": "All pairs and triples.", "anchors": ["src/address.rs: PartialEq for Address, PartialEq for ExplicitlyTypedAddress, From<ExplicitlyTypedAddress>"]}
{"id": "C35", "title": "Declared and actual address family agree", "statement": "Every typed address in an accepted session (origin, connections, a=rtcp) that is an IP has the family of its IP4/IP6 token; a mismatch is rejected with AddressTypeMismatch naming both families.", "quantifier": "all input strings", "why_tests_cant": "All addresses in all positions.", "anchors": ["src/address.rs: TryFrom<(AddressType, &str)> for ExplicitlyTypedAddress", "src/lib.rs: parse_origin, parse_connection", "src/attribute_type.rs: parse_rtcp"]}
{"id": "C36", "title": "Flag attributes take no value, value attributes need one", "statement": "Each of the 12 flag attributes followed by ':' is rejected whatever follows, and accepted without; each of the 31 other attributes is rejected when its value is missing or blank.", "quantifier": "all attribute lines", "why_tests_cant": "All names in any case with any value.", "anchors": ["src/attribute_type.rs: FromStr for SdpAttribute, string_or_empty"]}
{"id": "C37", "title": "Unknown attributes are harmless in lenient mode", "statement": "Inserting a line a=<unknown name>[:<anything>] at any position of an accepted document changes the lenient result only by one extra warning (and shifted line numbers).", "quantifier": "all accepted documents, all positions, all unknown names and values", "why_tests_cant": "A metamorphic claim over arbitrary documents.", "anchors": ["src/lib.rs: parse_sdp", "src/attribute_type.rs: FromStr for SdpAttribute"]}
{"id": "C38", "title": "Media sections are independent", "statement": "Replacing the lines of one media section by those of another legal section changes only that section of the result; all other sections and the session-level fields stay equal.", "quantifier": "all documents and sections", "why_tests_cant": "A two-run property.", "anchors": ["src/media_type.rs: parse_media_vector", "src/lib.rs: parse_sdp_vector"]}
{"id": "C39", "title": "Surrounding whitespace is ignored", "statement": "Leading and trailing whitespace around the type and around the value of a line does not change what the line parses to; for s= it does not change the session name.", "quantifier": "all lines and all runs of Unicode whitespace", "why_tests_cant": "Infinitely many paddings.", "anchors": ["src/lib.rs: parse_sdp_line, SdpSession::new", "src/attribute_type.rs: parse_attribute"]}
{"id": "C40", "title": "Obsolete and unknown line types are hard errors", "statement": "A line whose type is e, i, k, p, r, u, z or any other single letter not in a,b,c,m,o,s,t,v never parses and is never a warning, so a document containing it is rejected in both modes (strict mode may report an earlier warning).", "quantifier": "all documents containing such a line", "why_tests_cant": "Any position, any value.", "anchors": ["src/lib.rs: parse_sdp_line"]}
{"id": "C41", "title": "Printed sessions contain no injected lines", "statement": "The printed form of a session whose text fields contain no line feed consists of exactly one CRLF-terminated line per item (v, o, s, t, bandwidths, c, attributes, and per section m, bandwidths, c, attributes): splitting it into lines gives those items' printed forms in order, where attributes without a printed form get no line (an attribute list of only such attributes gives one line \"a=\"). No session produced by the parser has a line feed in a text field.", "quantifier": "all sessions without line feeds in their fields", "why_tests_cant": "All field contents.", "anchors": ["src/lib.rs: Display for SdpSession", "src/media_type.rs: Display for SdpMedia"]}
{"id": "C42", "title": "Simulcast and rid identifiers", "statement": "In a=simulcast a leading '~' marks exactly the paused ids and the id is the rest; version and alternative order is preserved; send and recv lists may come in either order and the same direction twice is rejected.", "quantifier": "all simulcast lines", "why_tests_cant": "Infinite language.", "anchors": ["src/attribute_type.rs: parse_simulcast, SdpAttributeSimulcastId::new"]}
{"id": "C43", "title": "Errors show the offending line", "statement": "The displayed text of a line error contains the error's own message, the line number and the verbatim line; of a sequence error the message and the line number; errors of different kinds never display alike, nor do two errors with the same message but a different line or line number, nor two different sequence errors. (Two line errors with different messages can display alike.)", "quantifier": "all errors", "why_tests_cant": "All messages and lines.", "anchors": ["src/error.rs: Display for SdpParserError, Display for SdpParserInternalError"]}
{"id": "C44", "title": "Connection and origin lines", "statement": "A c= value is accepted exactly when it has three tokens IN, IP4/IP6 and address[/ttl[/amount]] with ttl at most 255 and amount a u32, and an o= value exactly when its first six tokens are user, two u64, IN, IP4/IP6 and an address of that family; the parsed value carries exactly these.", "quantifier": "all strings", "why_tests_cant": "Infinite languages.", "anchors": ["src/lib.rs: parse_connection, parse_origin"]}
{"id": "C45", "title": "Masks are numbered consecutively", "statement": "The mask of the n-th distinct value of its kind, in order of first masking, whether masked on its own or inside a larger value, is the mask with number n: the fixed prefix and n padded to 8 digits for names, n as address or port, n modulo 256 in the last of eight bytes for fingerprints (numbers wrap at the counter's width).", "quantifier": "all histories of masking calls", "why_tests_cant": "All histories; interleavings of the kinds.", "anchors": ["src/anonymizer.rs: StatefulSdpAnonymizer, AnonymizationStrMap"]}
{"id": "C46", "title": "Every sensitive field of a clone is masked", "statement": "Field by field and in order, each candidate address and port, related address and port, remote candidate, fingerprint, ice-pwd, ice-ufrag, cname, origin user and origin or connection address of a masked clone is the mask that the anonymizer gives to that very field of the original.", "quantifier": "all values and all anonymizer states and histories", "why_tests_cant": "All shapes of values and histories.", "anchors": ["src/anonymizer.rs: AnonymizingClone", "src/attribute_type.rs: masked_clone", "src/lib.rs: masked_clone"]}
{"id": "C47", "title": "Exactly which lines are accepted, and what they mean", "statement": "For every line of every type and every one of the 43 attributes there is a grammar that says what the line means: parse_sdp_line accepts a line exactly when the grammar gives it a meaning, returns exactly that meaning with the line's number and text, and no line has two meanings (an imageattr line must be shorter than 2^31 characters, its brackets are counted with an i32). Consequently strict parse_sdp accepts a document exactly when it has at least 51 bytes, all its non-blank lines have a meaning, and these assemble to a structurally valid session.", "quantifier": "all lines and all documents", "why_tests_cant": "Infinite languages; every parser and dispatch table is involved.", "anchors": ["src/lib.rs: parse_sdp_line, parse_sdp", "src/attribute_type.rs: all parse_ functions, SdpAttribute::from_str", "src/media_type.rs: parse_media"]}
{"id": "C48", "title": "Exactly which lines are set aside as unsupported", "statement": "A line is reported as unsupported (a warning, or in strict mode the error) exactly when it is: an a= line with an unknown attribute name, with an unknown fingerprint hash, group or ssrc-group semantics, rtcp-fb type or (other than for trr-int) rtcp-fb parameter, an fmtp value without a space, or a candidate that is valid but for one extension name too many at its end; or an m= line with at least four tokens and an unknown medium, or a known medium and readable port with an unknown protocol. No such line has a meaning. Relaxed parse_sdp accepts a document exactly when it has at least 51 bytes, every non-blank line has a meaning or is unsupported, and the meanings assemble to a structurally valid session; it warns once per unsupported line, with its text and number, in order.", "quantifier": "all lines and all documents", "why_tests_cant": "Infinite languages; each of some forty parsers must not report anything else as unsupported.", "anchors": ["src/lib.rs: parse_sdp_line, parse_sdp", "src/attribute_type.rs: SdpAttribute::from_str, parse_candidate, parse_fingerprint, parse_fmtp, parse_group, parse_rtcp_fb, parse_ssrc_group", "src/media_type.rs: parse_media"]}
{"id": "C49", "title": "Errors handed on to other code", "statement": "A serialized error announces exactly the fields it has, names none twice, and its displayed text can be put together from them; no two different errors serialize alike. For every error or warning that parse_sdp gives for a text of at least 51 bytes, the serialized line number is that of a line of the text, and the serialized line, if any, is that line (but a sequence error about one of the first three lines counts without blank and unsupported lines, so it may point at a line that is not at fault). The cause of an error is shown within it, and errors of the standard library or url crate are never withheld.", "quantifier": "all errors, all texts", "why_tests_cant": "All errors; every way parsing can fail.", "anchors": ["src/error.rs: Serialize for SdpParserError, Error::source", "src/lib.rs: parse_sdp"]}
{"id": "C50", "title": "The example program's exit status", "statement": "examples/file_parser exits with 0 exactly when the file can be read and either no flag is given and the file without its comment lines is a valid session, or --expect-failure (in any case) is given and it is not; the status is 101 for a file that cannot be opened or read and for an invalid one without the flag, and 1 without file name, with another flag, or for an unexpected success. (Further arguments are ignored, and since the last line end is dropped a file whose text parse_sdp just accepts may be rejected.)", "quantifier": "all arguments and file contents below 2^30 characters", "why_tests_cant": "All files; includes which documents are valid.", "anchors": ["examples/file_parser.rs: main", "src/lib.rs: parse_sdp"]}
{"id": "C51", "title": "Masked values can be printed and parsed", "statement": "The masked clone of a well-formed attribute, connection or origin that survives printing (and contains no fingerprint) is printed as a line that parses to exactly that clone, whatever was masked before, as long as no more than 65535 distinct ports were masked; the same holds for the printed clone of a session, also when the clones of its media sections are added to it. It does not hold for fingerprints, whose masks have 8 bytes so that their lines are always rejected, nor for ports beyond the 65535th.", "quantifier": "all histories of masking, all values, all well-formed sessions", "why_tests_cant": "Histories of any length; the masks depend on the number of distinct values seen before.", "anchors": ["src/anonymizer.rs: StatefulSdpAnonymizer", "src/attribute_type.rs: masked_clone, fmt", "src/lib.rs: masked_clone, fmt, parse_sdp"]}
{"id": "C52", "title": "Sessions built with the API can be printed and parsed", "statement": "A session of version 0 that was built by any sequence of API calls (on the session and on its media sections) whose arguments survive being printed prints to a text that parses to exactly that session if and only if it follows the structural rules, each of its media lines is well-formed in the end, and the text has at least 51 bytes. In particular any number of audio and video sections made with add_media and at least one add_codec each is read back. Straight after add_media a section has no formats and the session cannot be parsed, and a data channel added in the old format is read back as another value.", "quantifier": "all sequences of API calls", "why_tests_cant": "Call sequences of any length and any arguments.", "anchors": ["src/lib.rs: SdpSession", "src/media_type.rs: SdpMedia", "src/lib.rs: fmt, parse_sdp"]}
{"id": "C53", "title": "Printed sessions follow the grammar of the RFCs", "statement": "The text printed for an accepted session is derived by an ABNF grammar after RFC 8866, 8839, 8122, 4585, 8285, 6236, 8851, 8853, 5576 and the payload format RFCs, line by line (numbers without leading zeros and within range, upper-case hexadecimal octets, canonical addresses, lists with their separators, CRLF line ends) and as a whole, exactly if no list of attributes of which nothing is printed (only fmtp values equal to the defaults) occurs in it; if one does, an empty a= line is printed. The same holds for any well-formed session. The order of lines of RFC 8866 is kept exactly if no two of timing, bandwidth and connection are given together, so never for an accepted session with a connection or bandwidth of its own.", "quantifier": "all accepted sessions and lines, all well-formed values", "why_tests_cant": "Infinitely many values; a grammar has to cover all texts printed for them.", "anchors": ["src/lib.rs: fmt", "src/attribute_type.rs: fmt", "src/media_type.rs: fmt", "src/address.rs: fmt"]}
{"id": "C54", "title": "The order of lines within a section does not matter", "statement": "Take consecutive lines after the s= line that contain no m= line and at most one of each of t=, c= and a=simulcast, and put them in another order: parse_sdp accepts the new text exactly if it accepted the old one (both of at least 51 bytes), and the two sessions differ only in the order of attributes and bandwidths within a section, and the warnings only in their order and line numbers. The conditions are needed: of two session-level c= or t= lines the last one counts, and of two simulcast attributes only the first is checked, so that acceptance depends on the order.", "quantifier": "all texts, all blocks of lines, all permutations", "why_tests_cant": "Factorially many orders of any number of lines; the rules about simulcast, extmap, connections and channel counts look at several lines.", "anchors": ["src/lib.rs: parse_sdp_vector, sanity_check_sdp_session, parse_sdp", "src/media_type.rs: parse_media_vector"]}
{"id": "C55", "title": "Printing and parsing again settles", "statement": "Values that change when they are printed and parsed do not change for ever: with every further round of printing and parsing the text of an accepted line or session (without NaN, below 2^31 characters) stays as it is or becomes strictly shorter, so after at most as many rounds as it has characters printing and parsing reproduce it exactly. One round is enough for a session without rid dependencies consisting of blanks and without '=' in simulcast ids: what comes out of the first round survives all others exactly (if its text has at least 51 bytes). In general no fixed number of rounds is enough: a second a=simulcast line, which is not checked, loses one leading rid= per round.", "quantifier": "all accepted sessions and lines, any number of rounds", "why_tests_cant": "Unbounded iteration of printing and parsing over infinitely many values.", "anchors": ["src/lib.rs: fmt, parse_sdp", "src/attribute_type.rs: fmt, parse_rid, parse_simulcast, parse_fmtp, parse_msid_semantic"]}
{"id": "C56", "title": "Documents can be read section by section", "statement": "Take a text made of a head (no m= line) and media sections, each an m= line accepted by the parser with the lines up to the next one. parse_sdp accepts it, with or without warnings as errors, exactly if it accepts the head with each section alone (all of at least 51 bytes), and then its session is made of theirs: the same session-level values, their media sections one after the other, the warnings of the head followed by those of each section. So sections can be left out, repeated, put in another order, and documents with the same head can be joined, with the expected session. It does not hold for sections whose m= line is not supported: with warnings allowed the m= line alone is skipped, and the lines after it become part of the section before (or make the document fail).", "quantifier": "all texts, any number of sections", "why_tests_cant": "Any number of sections of any length, in any order and choice.", "anchors": ["src/lib.rs: parse_sdp, parse_sdp_vector, sanity_check_sdp_session", "src/media_type.rs: parse_media_vector"]}
{"id": "C57", "title": "Serialized sessions can be told apart", "statement": "With the feature \"serialize\", what the derived impls hand to a serializer for a session or line has the shape of its type: each struct with its fields by name in order, each enum with the name and position of its variant, for human-readable and other formats. No two different sessions with addresses in range - in particular no two different accepted ones - give the same data, nor the same bytes-without-names (as bincode writes them), nor, if no float is NaN or infinite, the same JSON; the errors kept as warnings count, too. The JSON objects have no key twice, and all numbers of accepted sessions fit the types they are announced with. The condition on floats matters: accepted imageattr values q=NaN and no q at all give the same JSON.", "quantifier": "all sessions and all accepted lines, both kinds of format", "why_tests_cant": "Injectivity over all pairs of sessions.", "anchors": ["src/lib.rs: derive(Serialize) on all types", "src/attribute_type.rs: derive(Serialize) on all types", "src/address.rs, src/media_type.rs: derive(Serialize)", "src/error.rs: impl Serialize for SdpParserError"]}
{"id": "C58", "title": "Editing the text and editing the session agree", "statement": "Each call that changes a session or a media section (SdpSession::set_connection, add_bandwidth, set_timing, add_attribute, parse_session_vector, extend_media, add_media; SdpMedia::set_port, add_bandwidth, set_connection, add_attribute, set_attribute, remove_attribute, remove_codecs, add_codec, add_datachannel) does to the session what adding, deleting or changing lines does to its text: for any sequence of calls, the text edited accordingly is accepted if and only if the session edited by the calls obeys the structural rules, and then parsing it gives that session (but for line numbers in warnings). The same for sessions built with SdpSession::new, where the result is exactly the built session.", "quantifier": "all accepted texts, all sequences of calls, strict or not", "why_tests_cant": "Arbitrary interleavings of calls on arbitrary sessions and texts.", "anchors": ["src/lib.rs: SdpSession methods, parse_sdp", "src/media_type.rs: SdpMedia methods"]}
{"id": "C59", "title": "What is printed tells sessions apart", "statement": "Two sessions with well-formed items none of which is lossy (the values of C10 that do not survive printing) that print the same text are equal but for warnings - whether or not they obey the structural rules and however short the text is; in particular two accepted ones. The same for single lines. For lossy values it is false: accepted sessions that differ in the payload type of a default fmtp, in further parameters next to apt, in unknown parameters with a comma, or in an empty msid-semantic print alike.", "quantifier": "all pairs of well-formed sessions (texts below 2^31 characters)", "why_tests_cant": "Injectivity over all pairs of sessions.", "anchors": ["src/lib.rs: impl fmt::Display for SdpSession", "src/attribute_type.rs: impl fmt::Display for SdpAttribute"]}
{"id": "C60", "title": "Decimals are read as the nearest float and printed with the fewest digits", "statement": "What str::parse and Display do for f32 and f64, on which framerate and imageattr rest: text is accepted iff it is, after an optional sign, inf, infinity or nan in any case or digits with at most one dot and an optional exponent, and then yields the float nearest to the decimal (ties to even, too large gives infinity); a float is printed without exponent as the decimal with the fewest digits that reads as it, among those the nearest, of two the upper; there is one such text. The comparison used for sar and par ranges is that of the values. A framerate line is accepted iff its value is a decimal whose nearest f64 is neither zero nor infinite - negative ones included - and holds that f64.", "quantifier": "all texts and all bit patterns, f32 and f64", "why_tests_cant": "Rounding and shortest digits are quantified over all decimals and all floats.", "anchors": ["src/attribute_type.rs: parse_framerate", "src/attribute_type.rs: parse_image_attr_set", "src/attribute_type.rs: impl fmt::Display for SdpAttributeImageAttrSRange"]}
{"id": "C61", "title": "Every IP address text is read as its address and printed in one form", "statement": "A text is read as an IPv4 address iff it is four decimal octets without leading zeros, and as an IPv6 address iff it is one of the texts of RFC 4291 (eight groups of one to four hex digits in any case, the last two possibly a dotted quad, or :: for at least one zero group), with the value it stands for; nothing else is an address. An IPv4 address has one text; an address is printed in the form of RFC 5952 (lower case, no leading zeros, :: for the first longest run of at least two zero groups, a quad for mapped addresses) and in no other. A text with a colon that is an address is read as it wherever an address is read, anything else goes to the host parser; c= lines with different texts of one address are the same line and print alike.", "quantifier": "all texts and all addresses", "why_tests_cant": "The texts of an address and the 2^128 addresses cannot be enumerated.", "anchors": ["src/address.rs: impl FromStr for Address", "src/address.rs: impl fmt::Display for ExplicitlyTypedAddress", "src/lib.rs: parse_connection"]}
{"id": "C62", "title": "Lines as the RFCs write them are accepted, and documents of them", "statement": "Every line that a rule of RFC 8866, 8839, 8122, 4145, 4585, 5104, 8285, 5888, 5576, 3605, 8830, 8841, 8851, 8853, 4574 or of the fmtp registrations produces (rules written in ABNF, independent of the parser, limits of the code given by at_most) is accepted and read as the item of that name. A document of such lines in the order of RFC 8866 with a t= line, a c= line in the session or in every section, extmap at one level and rtcp-mux-only only beside rtcp-mux, whose simulcast lines use only identifiers that a rid line of the section declares for that direction and whose rid lines use only payload types of their m= line, is accepted in both modes without a warning and has its number of sections; in any order such lines give a session without warnings or a Sequence error. Sixteen rules of the RFCs go further and each has a line that is refused; of several remote candidates the first is kept; fmtp parameters after a semicolon and a blank are not read.", "quantifier": "all texts of each rule, all documents, both modes, every line number", "why_tests_cant": "The texts of a grammar are infinitely many.", "anchors": ["src/lib.rs: parse_sdp_line", "src/lib.rs: parse_sdp", "src/attribute_type.rs: parse_attribute", "src/attribute_type.rs: parse_fmtp", "src/attribute_type.rs: parse_candidate", "src/attribute_type.rs: parse_remote_candidates"]}
{"id": "C63", "title": "Masking again changes nothing", "statement": "Clones made one after the other by a fresh anonymizer, of any values in any number, are left as they are when they are masked again by a fresh anonymizer, also past the number of masks a kind has; likewise a session with its media sections. The anonymizer that made the clones does not leave them as they are.", "quantifier": "all lists of values of every maskable type, all sessions", "why_tests_cant": "The masks depend on the whole history of the anonymizer, and counters wrap only after up to 2^128 values.", "anchors": ["src/anonymizer.rs: ToBytesVec, StatefulSdpAnonymizer, AnonymizingClone", "src/lib.rs: SdpSession::masked_clone", "src/attribute_type.rs: SdpAttribute::masked_clone"]}
{"id": "C64", "title": "A session holds no more than its text", "statement": "Counting one for every char of a string and every element of a list, what is kept of an accepted line is less than k+1 times its length, and what is kept of an accepted text, with the lines shown by its warnings, is at most k+1 times its length, where the host parser makes a domain name at most k times as long as its text (k is 1 for names it does not rewrite). A line can be kept as something larger than itself, so the factor is needed.", "quantifier": "all lines, all texts, both modes", "why_tests_cant": "A text that is blown up when it is read is only found by chance; the bound is over all texts of any length.", "anchors": ["src/lib.rs: parse_sdp_line", "src/lib.rs: parse_sdp", "src/attribute_type.rs: parse_simulcast", "src/attribute_type.rs: parse_image_attr", "src/attribute_type.rs: parse_fmtp", "src/attribute_type.rs: parse_rid"]}
{"id": "C65", "title": "Printing what was accepted gives at most a fixed multiple of its text", "statement": "The text printed for a session that was parsed is at most (510 + 6m)(k+1) times as long as the text it was parsed from, where floats print with at most m chars and the host parser makes a domain name at most k times as long. Floats printed as Rust prints them take at most 359 chars. Some text is printed as more than twice its length, so there is a factor.", "quantifier": "all texts, both modes; floats of all bit patterns", "why_tests_cant": "A line that prints out of proportion (a float with a large exponent, a name repeated) is only found by chance; the bound is over all texts of any length.", "anchors": ["src/lib.rs: impl fmt::Display for SdpSession", "src/lib.rs: parse_sdp", "src/attribute_type.rs: impl fmt::Display for SdpAttribute", "src/attribute_type.rs: impl fmt::Display for SdpAttributeFmtpParameters"]}
{"id": "C66", "title": "Errors about the order of lines name the rule that is broken", "statement": "A Sequence error is reported exactly if every line means something or is set aside as unsupported (in strict mode none is) and a rule about the lines together is broken; its message is that of the first rule broken, in the order: at least four lines, v= o= s= first, lines in place before the first m= line, lines in place in each media section, timing, connection, extmap, and for each section rtcp-mux-only, rid payload types, simulcast ids. For a line out of place the number is that of the line in the text. For the second and third line it is not: the number is 1 or 2 even if blank or unsupported lines come before.", "quantifier": "all texts shorter than 2^31 chars, both modes", "why_tests_cant": "Tests check that some error is returned for some broken texts; which rule is named when several are broken, and that no text is refused without a broken rule, needs all texts.", "anchors": ["src/lib.rs: parse_sdp_vector", "src/lib.rs: sanity_check_sdp_session", "src/lib.rs: parse_session_vector", "src/media_type.rs: parse_media_vector"]}
{"id": "C67", "title": "Warnings say what is not supported", "statement": "A line of ASCII chars is set aside as unsupported with the message for its kind: the name of an unknown attribute in small letters, the unknown hash, media kind or protocol as written, an unknown group semantic in capitals and quoted, an unknown feedback type or parameter quoted with the feedback type, and fixed texts for a candidate extension without value, an fmtp without parameters and an ack without parameter. The warnings of a session are these messages in the order of the lines, with the lines and their numbers. Quoting puts a backslash before quotes and backslashes and writes control chars as escapes; no two texts have the same quotation and a quotation is visible on one line.", "quantifier": "all lines of ASCII chars (the case mappings and the escapes of other chars are simplified in the model)", "why_tests_cant": "Tests check that lines are refused, not what the warnings say about them.", "anchors": ["src/attribute_type.rs: parse_rtcp_fb", "src/attribute_type.rs: parse_group", "src/attribute_type.rs: parse_fingerprint", "src/media_type.rs: parse_media_token", "src/media_type.rs: parse_protocol_token", "src/lib.rs: parse_sdp_line"]}
{"id": "C68", "title": "Refused lines name the first rule that is broken", "statement": "Every line other than an attribute is refused with exactly one error: that of the first rule it breaks, in a fixed order. The rules: a line has a = after a single letter, a value (unless it is s=) and a known letter; obsolete letters (e, i, k, p, r, u, z) are named with their value; versions, identifiers, times, bandwidths, ports, port counts, times to live and payload types are decimal numbers that fit, where the first char that does not fit decides between an invalid digit and an overflow; the missing word of an origin is named; addresses are of the announced family; of a connection the number of addresses is judged before the time to live and both before the address; of a media line the first wrong format is reported. Among several wrong lines the last is reported with its number. The code's texts missing type, missing value, missing port token, missing username and address type mismatch of the origin are never used.", "quantifier": "all lines that are not attributes, all documents below 2 GiB, all behaviours of the host parser", "why_tests_cant": "There is one test per error at most; the order of checks and errors that cannot occur show only for lines wrong in two ways or for no line at all.", "anchors": ["src/lib.rs: parse_sdp_line", "src/lib.rs: parse_origin", "src/lib.rs: parse_connection", "src/lib.rs: parse_bandwidth", "src/lib.rs: parse_timing", "src/lib.rs: parse_version", "src/media_type.rs: parse_media", "src/address.rs: ExplicitlyTypedAddress"]}
{"id": "C69", "title": "Refused attributes name the first rule that is broken", "statement": "Every attribute line, for each of the 43 attribute names, is refused with exactly one error: that of the first rule it breaks, in a fixed order. A name that takes no value must have none; the other names have rules for their number of words, numbers and their range, keywords, addresses and floats, applied in the order of the rules (so a fmtp parameter is judged before the payload type, rid parameters before the direction, RTX time needs an APT before it). A text is refused with a line error exactly if a line is refused (and in strict mode no line is unsupported), the error being that of the last such line, with the line and its number. The errors say nothing but the listed texts, each of which is used; three texts of the code never are.", "quantifier": "all lines and texts below 2 GiB, all behaviours of the host and float parsers", "why_tests_cant": "There is one test per error at most; which of two broken rules is reported, and that an error cannot occur at all, show for no single text.", "anchors": ["src/attribute_type.rs: FromStr for SdpAttribute", "src/attribute_type.rs: parse_candidate", "src/attribute_type.rs: parse_fmtp", "src/attribute_type.rs: parse_image_attr", "src/attribute_type.rs: parse_rid", "src/attribute_type.rs: parse_rtcp_fb", "src/attribute_type.rs: parse_simulcast", "src/attribute_type.rs: parse_fingerprint", "src/lib.rs: parse_sdp_line", "src/lib.rs: parse_sdp"]}
{"id": "C70", "title": "Every text has exactly one outcome, described without the parser", "statement": "Every line is of exactly one kind: it has one meaning in the grammar, it is unsupported, or it is refused for one reason. The result of reading a text, strict or relaxed, is that given by a relation on texts that does not mention the parser: empty and short texts are refused; then, if strict, the first unsupported line; then the last refused line; then the first broken rule about the order of lines; otherwise the session the lines make up, with one warning per unsupported line in order. For ASCII texts the relation gives exactly one result, the parser's.", "quantifier": "all texts below 2 GiB, strict and relaxed, all total behaviours of the host and float parsers", "why_tests_cant": "Tests compare single texts; that the description of meanings, unsupported lines, refusals and sequence errors leaves no text out and never contradicts itself is a statement about all texts.", "anchors": ["src/lib.rs: parse_sdp", "src/lib.rs: parse_sdp_line", "src/lib.rs: parse_sdp_vector", "src/lib.rs: sanity_check_sdp_session"]}
{"id": "C71", "title": "What parsing writes to the log is known, and attributes are not in it", "statement": "parse_sdp with its trace! and warn! calls gives the same results as without them. It writes one trace record for each line that has a meaning and is not an attribute, in order, whether or not the text is accepted and also after a refused line; then, only if the text is accepted, one warning per unsupported line. Texts that differ in attribute lines only (passwords, fingerprints, candidates) have the same trace. A trace record read as a line means the same as the line it was written for, except that the number of ports of a media line is not written.", "quantifier": "all texts below 2 GiB, strict and relaxed, all total behaviours of the host and float parsers (read back: all lawful ones)", "why_tests_cant": "No test looks at the log, and that something never reaches the log is a statement about all texts.", "anchors": ["src/lib.rs: parse_session", "src/lib.rs: parse_version", "src/lib.rs: parse_origin", "src/lib.rs: parse_connection", "src/lib.rs: parse_bandwidth", "src/lib.rs: parse_timing", "src/lib.rs: parse_sdp", "src/media_type.rs: parse_media"]}
{"id": "C72", "title": "What the example program prints is known for all arguments and files", "statement": "For all arguments and file contents, what examples/file_parser.rs prints and its exit status are given by a relation over the outcomes of C70: a missing name, a file that cannot be opened or read, a bad flag, an accepted file with and without --expect-failure, a refused file with and without it. The line named by a printed error is found by counting, from 0, the lines of the file that are not comments; so the number is not that of the line in the file if there are comments before it.", "quantifier": "all argument lists and file contents below 1 GiB, all total behaviours of the host and float parsers", "why_tests_cant": "The project only runs the program on 40 files and looks at the exit status.", "anchors": ["examples/file_parser.rs: main", "src/error.rs: Display for SdpParserError"]}
{"id": "C73", "title": "The text of an error says which error it is", "statement": "The Display text of every error of the crate is given by a table written down apart from the code, including the texts of the wrapped number, float, host and address errors. The text of an internal error determines the error: no two different ones, whatever their messages, are shown alike.", "quantifier": "all errors", "why_tests_cant": "error_tests.rs compares a few texts; that no two errors are shown alike is a statement about all pairs with all messages.", "anchors": ["src/error.rs: Display for SdpParserInternalError", "src/error.rs: Display for SdpParserError"]}
{"id": "C74", "title": "What the public loops over lines leave behind", "statement": "parse_session_vector called with any session and any lines: the lines before the first one that cannot stand at session level are in the session, that line is removed from the vector and named in the error, the lines after it are left; calling it again goes on as if the refused line had not been there. parse_media_vector likewise gives the sections or the first misplaced line and leaves the lines after it; it panics exactly when the vector is empty.", "quantifier": "all sessions and all vectors of lines", "why_tests_cant": "the tests call parse_media_vector with a few vectors and never look at the vector afterwards.", "anchors": ["src/lib.rs: SdpSession::parse_session_vector", "src/media_type.rs: parse_media_vector"]}
{"id": "C75", "title": "Frame rates and image attributes as the RFCs write them", "statement": "Every a=framerate line of RFC 8866 with at most 300 characters of value, and every a=imageattr line of RFC 6236 whose parts are separated by single spaces (sizes, ranges with and without step, lists, rising sample and picture aspect ratios, q values, other keys, either or both directions) is read as that attribute. Refused although the RFCs allow them: more blanks between the parts, the directions in upper case, the same direction twice, frame rates beyond the range of a double.", "quantifier": "all texts of the rules, of any length below 2^31 characters", "why_tests_cant": "the tests have a dozen imageattr lines; they do not reach lists and ranges of any length, nor decimals that are one ten-thousandth apart.", "anchors": ["src/attribute_type.rs: parse_framerate", "src/attribute_type.rs: parse_image_attr", "src/attribute_type.rs: parse_imageattr_tokens", "src/attribute_type.rs: parse_image_attr_set", "src/attribute_type.rs: parse_image_attr_xyrange", "src/attribute_type.rs: parse_image_attr_set_list"]}
{"id": "C76", "title": "The Debug texts of sessions", "statement": "{:?} and {:#?} of a session list every field by name, in the order of the definition, laid out as the standard library lays out structs, tuples, lists and variants (one line, or four blanks further in per level). Whatever the session holds, the text has no control character and none that cannot be printed. Sessions with the same text are equal, so what the example program prints tells every field of what it has read; only the bits of a NaN in an image attribute are lost.", "quantifier": "all sessions, all texts of the floats and foreign errors that meet the stated conditions", "why_tests_cant": "no test looks at the Debug text; derived output is only printed by the example.", "anchors": ["src/lib.rs: SdpSession", "src/lib.rs: SdpType", "src/attribute_type.rs: SdpAttribute", "src/media_type.rs: SdpMedia", "src/error.rs: SdpParserError", "src/error.rs: SdpParserInternalError", "src/address.rs: ExplicitlyTypedAddress"]}
{"id": "C77", "title": "Errors are not much longer than what they are about", "statement": "An error of a line takes at most seven times the line, a fixed number of chars, the number of the line and what the host parser says. All warnings of an accepted text together take at most a fixed multiple of the text. The error of a refused text does too, also when it shows an attribute as the crate prints it. Six times the line is not enough, whatever is added.", "quantifier": "all ASCII texts that fit into memory", "why_tests_cant": "the lengths of error texts are not tested; a caller that logs or returns errors relies on them being proportional to the input.", "anchors": ["src/lib.rs: parse_sdp_line", "src/lib.rs: parse_sdp", "src/lib.rs: SdpSession::parse_session_vector", "src/attribute_type.rs: parse_ssrc_group", "src/attribute_type.rs: parse_rtcp_fb", "src/media_type.rs: parse_media_vector", "src/error.rs: SdpParserError", "src/error.rs: SdpParserInternalError"]}
{"id": "C78", "title": "Lines that no rule is about can be added and taken out", "statement": "A b= line, or an a= line of an attribute other than rtcp-mux-only, rid, simulcast and extmap, can be added to an accepted text at any place after the s= line where its kind belongs; the text stays accepted and the session has exactly that one item more. Such a line, of an attribute other than rtcp-mux, rid and simulcast, can be taken out again with the opposite effect. For each of the named attributes there are texts where this fails. So documents of the RFCs stay accepted with any lines of frame rates and image attributes in their media sections.", "quantifier": "all texts, places and lines", "why_tests_cant": "a rule across lines could depend on an attribute by accident (a lookup by the wrong type); tests use fixed texts and do not compare a text with itself plus a line.", "anchors": ["src/lib.rs: sanity_check_sdp_session", "src/lib.rs: parse_sdp_vector", "src/media_type.rs: parse_media_vector", "src/attribute_type.rs: allowed_at_session_level", "src/attribute_type.rs: allowed_at_media_level"]}
{"id": "C79", "title": "Frame rates and image attributes are printed as the RFCs write them", "statement": "A framerate line that is read, however it is written, is printed following RFC 8866 (an integer or a decimal, no zero in front, none at the end) exactly when the rate is not negative. An imageattr line of RFC 6236 is printed following RFC 6236 again, with the values in order and within the digits the RFC allows, if none of its ratios and preferences is a whole number; there are lines with a whole number whose printed line the RFC does not allow.", "quantifier": "all lines; all standard float conversions", "why_tests_cant": "the shape of a printed float depends on the shortest decimal that reads back; tests print a handful of values.", "anchors": ["src/attribute_type.rs: SdpAttributeImageAttrSet", "src/attribute_type.rs: SdpAttributeImageAttrSRange", "src/attribute_type.rs: SdpAttributeImageAttr", "src/attribute_type.rs: SdpAttribute (Display)"]}
{"id": "C80", "title": "Lines written as the RFCs write them are printed as the RFCs write them", "statement": "A line that follows one of the grammar rules taken from the RFCs (C62: flags, 29 kinds of attribute values, v, o, s, t, b, c and m lines) is read, and what is printed for it follows the same rule again, with any case of letters, leading zeros, order and unknown parameters the rule allows. The exceptions are fmtp lines of which nothing is left to print because every parameter has its default, and ssrc lines whose value is only blanks; for both there are lines whose printed form breaks the rule.", "quantifier": "all lines of the rules; all externals", "why_tests_cant": "each rule describes infinitely many lines, and tests compare the printed text of a few of them.", "anchors": ["src/attribute_type.rs: SdpAttribute", "src/attribute_type.rs: SdpAttributeCandidate", "src/attribute_type.rs: SdpAttributeFmtpParameters", "src/attribute_type.rs: SdpAttributeRid", "src/attribute_type.rs: SdpAttributeSsrc", "src/lib.rs: SdpConnection", "src/media_type.rs: SdpMediaLine", "src/address.rs: Address"]}
{"id": "C81", "title": "Documents written as the RFCs write them are printed so", "statement": "If every line of a text follows one of the grammar rules taken from the RFCs (C62), in any order in which the text is accepted, every line of what is printed for its session follows one of these rules as well, except that an a= line without a value is printed where all attributes of the session or of a section are fmtp lines with only default parameters, and an ssrc line whose value was only blanks is printed with an empty one.", "quantifier": "all texts of such lines, both modes; all externals", "why_tests_cant": "it is about every line of every such document; tests compare a handful of printed documents.", "anchors": ["src/lib.rs: parse_sdp", "src/lib.rs: SdpSession", "src/media_type.rs: SdpMedia", "src/attribute_type.rs: SdpAttribute"]}
{"id": "C82", "title": "Masked lines and the RFCs", "statement": "A candidate, remote-candidates, origin, connection or ssrc line (or any other line that can be masked) that follows the grammar rule taken from its RFC (C62), masked by an anonymizer with any history and printed, follows the same rule, as long as no more than 65535 distinct ports were masked. REFUTED for ice-ufrag, ice-pwd and fingerprint: no mask, whatever was masked, follows the rule; the names contain a hyphen, which is no ice-char, and a masked fingerprint has 8 bytes whatever the hash function.", "quantifier": "all lines of the grammar, all histories of masking; all externals", "why_tests_cant": "it is about every line and every history; the tests look at a few masks and never at the grammar of what is printed for them.", "anchors": ["src/anonymizer.rs: StatefulSdpAnonymizer", "src/attribute_type.rs: SdpAttribute", "src/lib.rs: SdpOrigin", "src/lib.rs: SdpConnection"]}
{"id": "C83", "title": "Masked documents and the RFCs", "statement": "If every line of a text follows one of the grammar rules taken from the RFCs (C62), the masked clone of its session, to which the masked clones of its media sections have been added, made by an anonymizer with any history that has masked no more than 65535 distinct ports, is printed as lines that follow these rules, except for the lines with masked user fragments, passwords and fingerprints (C82) and those of attributes that have lost their text (C81).", "quantifier": "all texts of such lines, both modes, all histories of masking; all externals", "why_tests_cant": "it is about every line of every such document and every history; the tests compare a few masked values.", "anchors": ["src/anonymizer.rs: StatefulSdpAnonymizer", "src/lib.rs: SdpSession", "src/media_type.rs: SdpMedia", "src/attribute_type.rs: SdpAttribute"]}
{"id": "C84", "title": "Masked documents with fingerprints", "statement": "If a session has a fingerprint among its attributes, the print of its masked clone, made by an anonymizer with any history, is rejected by the parser in both modes, whatever else the session contains; the same is true of the clone to which the masked clones of the media sections have been added, if the session or any section has a fingerprint.", "quantifier": "all sessions with a fingerprint, all histories of masking, both modes; all externals", "why_tests_cant": "it is about every session and history; no test parses an anonymized document.", "anchors": ["src/anonymizer.rs: mask_cert_finger_print", "src/attribute_type.rs: SdpAttributeFingerprint", "src/lib.rs: SdpSession", "src/media_type.rs: SdpMedia"]}
{"id": "C85", "title": "Blanks between fields", "statement": "In origin, connection, timing and media lines and in candidate, extmap, fingerprint, group, ice-options, msid, msid-semantic, remote-candidates, rtcp, rtpmap, sctpmap, simulcast and ssrc-group attributes the whitespace between the words of the value does not matter: with any other (non-empty) whitespace between the same words the line is read as the same value, or refused for the same reason, and documents that differ only so give the same session or the same error up to the quoted lines. For dtls-message, fmtp, imageattr, rid, rtcp-fb and ssrc this is not so.", "quantifier": "all lines of these types and attributes in any case of type and name, all whitespace, all documents of at least 51 bytes, both modes; all externals", "why_tests_cant": "it is about every placement of whitespace in every line; the tests try a few lines with single blanks.", "anchors": ["src/lib.rs: parse_origin", "src/lib.rs: parse_connection", "src/media_type.rs: parse_media", "src/attribute_type.rs: parse_candidate", "src/attribute_type.rs: parse_rtpmap", "src/attribute_type.rs: parse_rtcp_fb"]}
{"id": "C86", "title": "Surplus words", "statement": "What follows the sixth word of an origin line, the second word of an msid or rtpmap attribute, the third of remote-candidates and the fourth of rtcp and simulcast is ignored: the line is read as the same value, or refused for the same reason, with any other words there, and documents that differ only so give the same session or the same error up to the quoted lines. Connection and timing lines and fingerprint and sctpmap attributes are accepted with three, two, two and three words only.", "quantifier": "all lines of these types and attributes in any case of type and name, all surplus words and whitespace, all documents of at least 51 bytes, both modes; all externals", "why_tests_cant": "it is about all surplus texts; the tests have no line with surplus words for most of these.", "anchors": ["src/lib.rs: parse_origin", "src/lib.rs: parse_connection", "src/lib.rs: parse_timing", "src/attribute_type.rs: parse_msid", "src/attribute_type.rs: parse_rtpmap", "src/attribute_type.rs: parse_rtcp", "src/attribute_type.rs: parse_simulcast"]}
{"id": "C87", "title": "The fuzz target", "statement": "The fuzz target takes bytes for a text exactly if they are the UTF-8 encoding of Unicode scalar values, and then for this text; it panics exactly on the encodings of texts on which parse_sdp panics in strict mode, so not on any input of less than 2 GiB; on some longer input it does.", "quantifier": "all sequences of bytes; all externals that return", "why_tests_cant": "fuzzing tries some inputs; the claim is about all of them, including all byte sequences that are no UTF-8.", "anchors": ["fuzz/fuzz_targets/fuzz_target_parse_sdp.rs: fuzz_target", "src/lib.rs: parse_sdp"]}
{"id": "C88", "title": "Encodings of files and texts", "statement": "A text that begins with a byte order mark is accepted in neither mode, whatever follows. The example program reads a file as a text exactly if its bytes are the UTF-8 of this text; its exit status is then as described in C50; for a file that is no UTF-8 it is 101, even if a failure is expected, and for a file that begins with a byte order mark it is 101 if no failure is expected.", "quantifier": "all texts, both modes; all files as sequences of bytes, all arguments; all externals", "why_tests_cant": "it is about all texts and all files; no test has a byte order mark or a file that is no UTF-8.", "anchors": ["examples/file_parser.rs: main", "src/lib.rs: parse_sdp", "src/lib.rs: parse_sdp_line"]}
{"id": "C89", "title": "How many lines a session needs", "statement": "An accepted text has at least as many line feeds as the session has items (version, origin, timing, connections, bandwidths, attributes, media lines) and warnings together. So it has at least three, one more for each media section and one more if there is any section; a text whose lines end in carriage returns only is never accepted.", "quantifier": "all texts, both modes; all externals", "why_tests_cant": "it is about all texts; no test has carriage returns as the only line ends.", "anchors": ["src/lib.rs: parse_sdp", "src/lib.rs: parse_sdp_vector", "src/lib.rs: sanity_check_sdp_session", "src/media_type.rs: parse_media_vector"]}
{"id": "C90", "title": "Two sessions in one text", "statement": "A text with two v= lines, two o= lines or two s= lines is not accepted. So a text that contains two accepted texts one after the other is not accepted in either mode, whatever precedes, separates and follows them, even if lines are glued together.", "quantifier": "all texts, both modes; all externals", "why_tests_cant": "it is about all pairs of accepted texts and all texts around them.", "anchors": ["src/lib.rs: parse_sdp", "src/lib.rs: parse_sdp_vector", "src/lib.rs: parse_session_vector", "src/media_type.rs: parse_media_vector"]}
{"id": "C91", "title": "The lines of masked documents", "statement": "The print of a parsed session and the print of its masked clone, with the masked clones of its media sections, made by an anonymizer with any history, have the same number of lines. Each line is the same, except that o= and c= lines and the candidate, fingerprint, ice-pwd, ice-ufrag, remote-candidates and ssrc attributes may differ in what comes after the name. The same holds for sessions built with the API, unless there is an empty ice-pwd or ice-ufrag: it has no line, its mask has one.", "quantifier": "all parsed sessions, all histories of masking; all externals with the documented behaviour", "why_tests_cant": "it is about every session and history; no test compares the lines of the two prints.", "anchors": ["src/lib.rs: SdpSession", "src/media_type.rs: SdpMedia", "src/attribute_type.rs: SdpAttribute", "src/anonymizer.rs: mask_ice_password"]}
{"id": "C92", "title": "What masking leaves readable", "statement": "In the print of the masked clone of a parsed session, with the masked clones of its media sections, made by an anonymizer with any history, one can read: every line of the print of the session other than o=, c=, candidate, fingerprint, ice-pwd, ice-ufrag, remote-candidates and ssrc lines, so the addresses in rtcp lines; the connection data of every media section; and the ICE user name in every candidate that has one, although that of ice-ufrag lines is masked.", "quantifier": "all parsed sessions, all histories of masking; all externals with the documented behaviour", "why_tests_cant": "it is about every session and history; the tests only look at single values that are masked.", "anchors": ["src/lib.rs: SdpSession", "src/media_type.rs: SdpMedia", "src/attribute_type.rs: SdpAttributeCandidate", "src/anonymizer.rs: AnonymizingClone"]}
{"id": "C93", "title": "Lines before a document", "statement": "If a text is accepted, and is still accepted with other lines before it, in either mode, then each of these lines is blank or, unless warnings are errors, not supported, and the session is the same but for its warnings. Such lines can always be put before an accepted text. It does not hold for texts glued together without a line feed: what is before can replace the first line.", "quantifier": "all texts, both modes; all externals", "why_tests_cant": "it is about all texts and everything that can be put before them.", "anchors": ["src/lib.rs: parse_sdp", "src/lib.rs: parse_sdp_vector"]}
{"id": "C94", "title": "Lines after a document", "statement": "If a text that ends in a line feed is accepted, and is still accepted with more text after it, in either mode, then nothing of the session but its warnings, of which nothing is said, is lost or changed: version, origin, name, and with media sections all session-level values are the same; the sections are the same but for more bandwidths, attributes and perhaps connection data at the end of the last one, and for further sections. Without media sections there may be more bandwidths and attributes at session level, and the timing and the connection data may be replaced.", "quantifier": "all texts, both modes; all externals", "why_tests_cant": "it is about all texts and everything that can be put after them.", "anchors": ["src/lib.rs: parse_sdp", "src/lib.rs: parse_sdp_vector", "src/lib.rs: parse_session_vector", "src/media_type.rs: parse_media_vector"]}
