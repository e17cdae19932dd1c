# Formal model of mozilla/webrtc-sdp: design

The code in /repo (Rust, about 5000 lines without tests) is a pure parser and
printer for SDP session descriptions, an editing API on the parsed values, and a
stateful anonymizer.  There is no I/O, concurrency or unsafe code.  Everything
is modelled as total Gallina functions (Coq 8.16.1, standard library only).

## Model files (rocq/theories)

| File | Models |
|---|---|
| Str.v | `str`/`String` as lists of code points, the std string functions used, `res` = Ok / Err / Panic |
| Num.v | `uN::from_str_radix`, integer printing |
| Net.v | `IpAddr` printing and parsing (std::net) |
| Types.v | all structs and enums of error.rs, address.rs, attribute_type.rs, media_type.rs, lib.rs |
| Ext.v | interface to what is *not* modelled: `url::Host::parse`, float text conversion |
| Show.v | every `Display` impl |
| Address.v | address.rs, network.rs |
| AttrParse.v | attribute_type.rs parsers, `SdpAttribute::from_str`, level tables |
| Media.v | media_type.rs: `SdpMedia` API, `parse_media`, `parse_media_vector` |
| Vectors.v | `parse_session_vector` and `parse_media_vector` with the caller's vector |
| Session.v | lib.rs: line parsers, `SdpSession` API, `parse_sdp_line`, `sanity_check_sdp_session`, `parse_sdp_vector`, `parse_sdp` |
| Anon.v | anonymizer.rs and all `masked_clone` impls |
| Tools.v | error.rs: `Serialize`, `Error::source`; examples/file_parser.rs |
| Serde.v | `derive(Serialize)` of all types |
| Output.v | what examples/file_parser.rs prints |
| Debug.v | `{:?}` and `{:#?}` of sessions |
| Log.v | the `trace!` and `warn!` calls of lib.rs and media_type.rs |
| Ext0.v | a concrete `Ext` (decimal/IEEE conversion, ASCII host parser), used by tests and witnesses only |

Every definition cites the file and lines it models.  Panics (indexing, slicing,
`unwrap`, `unreachable!`, i32 overflow in a debug build) are an explicit outcome.

## Specification, proof and theorem files

| Files | Content |
|---|---|
| SpecDoc.v, SpecVal.v, SpecItems.v, SpecPrint.v, SpecApi.v, SpecAnon.v, SpecCase.v, SpecUnsup.v, SpecTools.v, SpecMask.v, SpecBuild.v, SpecGrammar.v, SpecOrder.v, SpecSettle.v, SpecSections.v, SpecSerde.v, SpecEdit.v, SpecFloat.v, SpecIp.v, SpecRfc.v, SpecTwice.v, SpecSize.v, SpecGrow.v, SpecSeq.v, SpecWarn.v, SpecWhy.v, SpecCause.v, SpecOutcome.v, SpecLog.v, SpecOutput.v, SpecErr.v, SpecVectors.v, SpecRfc2.v, SpecDebug.v, SpecLong.v, SpecFree.v, SpecRfc3.v, SpecBlank.v, SpecFuzz.v, SpecOnce.v, SpecShape.v, SpecAhead.v, SpecAfter.v | what the theorems say: grammar and meaning of documents, lines and values, well-formed and lossy values, histories of edits, masking; written without the model's functions (only its data types, character classes and integer/address text) |
| StrLemmas.v, NumLemmas.v, NetLemmas.v, P*.v | lemmas and proofs |
| PropPanic.v, PropDoc.v, PropVal.v, PropItems.v, PropPrint.v, PropRound.v, PropApi.v, PropAnon.v, PropExt.v, PropCase.v, PropUnsup.v, PropTools.v, PropMask.v, PropBuild.v, PropGram.v, PropOrder.v, PropSettle.v, PropSections.v, PropSerde.v, PropEdit.v, PropInj.v, PropFloat.v, PropIp.v, PropRfc.v, PropTwice.v, PropSize.v, PropGrow.v, PropSeq.v, PropWarn.v, PropWhy.v, PropCause.v, PropOutcome.v, PropLog.v, PropOutput.v, PropErr.v, PropVectors.v, PropRfc2.v, PropDebug.v, PropLong.v, PropFree.v, PropRfc3.v, PropRfc4.v, PropRfc5.v, PropRfc6.v, PropRfc7.v, PropMask2.v, PropBlank.v, PropWords.v, PropFuzz.v, PropDisk.v, PropCount.v, PropOnce.v, PropShape.v, PropLeft.v, PropAhead.v, PropAfter.v | the theorems of MANIFEST.json, each with examples, and `Print Assumptions` of all of them at the end |
| Tests.v, TestsApi.v, TestsSdps.v | the inputs of the project's own tests run on the model (427 texts, plus the editing and masking tests, plus the 40 runs of the example program in .travis.yml); tests of the model, not theorems |

## Simplifications

* A string is a list of `N`; theorems quantify over all lists, a superset of the
  valid Rust strings.
* `to_lowercase`/`to_uppercase` are exact for every char whose image is ASCII;
  other non-ASCII chars are left alone (Str.v).  All comparisons except domain
  name equality are against ASCII literals, for which this is exact.  Error
  texts that quote a name after case mapping ("Unknown attribute type",
  "Unknown group semantic", ...) are exact for names of chars that the case
  mapping of the model covers.
* `{:?}` of strings inside error texts takes every char above U+009F as printable.
* `url::ParseError` is its message; `AddrParseError` is a constant.
* f32/f64 are bit patterns; comparison and classification are modelled, the
  conversion from and to decimal text is a parameter (`Ext`), with the laws
  `ext_ok` as an explicit hypothesis of the theorems that need them.  Ext0.v
  instantiates it with an exact decimal/IEEE conversion and an ASCII host parser
  and proves `ext_ok` of it, so the hypothesis is satisfiable and the model runs.
  C60 says what the conversion computes (nearest float; shortest digits); that
  Rust's standard library does the same is trusted.
* `HashMap` is an association list (insertion only for absent keys).
* `&mut self` methods return the new value; methods that can fail return the
  new value and the result, so that partial effects are visible.
* Integer overflow outside the places above cannot happen (proved as ranges
  where it matters).  Stack depth and memory are not modelled.
* For the example program the file system is a function from names to contents (to bytes in Disk.v);
  the text of I/O errors is a parameter, and so is `{:#?}` of a session (C76 fills it in).
* The derived serde `Serialize` impls (feature "serialize") are modelled as the
  data they hand to a serializer; serde_derive, serde's impls for std types and
  the output formats (a JSON tree, a stream without names) follow their
  documentation, as they are not in the repository.
* The log is modelled as levels and messages (Log.v); target and source position,
  which the `log` crate adds, are not.
* The derived `Debug` impls (feature "enhanced_debug") are modelled for sessions
  (Debug.v) on the data of Serde.v, with the layout of `std::fmt`'s builders and
  the quoting of strings.  Which chars above U+009F are printable, the `Debug`
  text of floats, of `url::ParseError` and of `AddrParseError` are parameters.
* The fuzz target (Fuzz.v) is modelled with `std::str::from_utf8`, which follows
  its documentation and RFC 3629.
* Not modelled: the `Debug` derives of the other types on their own and the
  C-style getters of the Firefox glue (not in this repo).

## Trusted base

Coq's kernel; the reading of the Rust code (and of the std functions in Str.v,
Num.v, Net.v) into Gallina; for theorems with hypothesis `ext_ok E`, that the
real `Host::parse` and float conversions satisfy those laws.  `Print
Assumptions` is printed at the end of every Prop*.v file for all theorems of
the file; no axioms are used (every output is "Closed under the global
context").  The two hypotheses about `Ext`: `ext_total` (the external functions
return and never panic) and `ext_ok` (results are in the range of their types,
dotted quads, domain names and printed floats read back, printed floats and
domains contain only their characters, signs are kept; Ext.v lists them).
`ext_ok_satisfiable` (PropExt.v) shows that they can be met together.  The
library of `lia` loads ssreflect, whose module `Coq.ssr.ssrunder.Under_rel` is
sealed by a module type and therefore listed as axioms by whole-library
checkers; no theorem depends on it.

## Plan per property

| Id | What is modelled | How proved |
|---|---|---|
| C01 | parse_sdp with Panic outcome | per-parser lemma "never Panic"; imageattr counter bounded by the number of tokens; negative part by induction on a repeated "[ " string |
| C02 | parse_sdp, both flags | case analysis on the scan result |
| C03 | scan_lines | induction over lines; spec = filter of per-line results |
| C04 | scan_lines, parse_sdp | same invariant, first/last of the error lists |
| C05 | lines, scan_lines | relation "equal up to line numbers" preserved by each step |
| C06 | sanity_check | separate Prop spec, equivalence with the boolean check |
| C07 | level tables, section parsers | invariant over the line loop; table written out by name |
| C08 | parse_session_vector, parse_media_vector | declarative spec by chunks; equivalence by induction |
| C09 | same | corollaries stated on the line list |
| C10 | show_session, parse_sdp | line-by-line round trip, `lines` of a CRLF-joined text; converse by counting attribute lines |
| C11 | show_attr, attr_from_str | one lemma per kind |
| C12 | attr_from_str | one lemma per kind: output is well-formed or listed; converse by lengths or by another value with the same text |
| C13 | show_ip, parse_ip | digit/segment lemmas, case analysis on the zero span |
| C14 | parse_uint, show_N | induction over digits |
| C15 | to_lower/to_upper uses | relation "equal up to ASCII case" |
| C16 | parse_media | inductive grammar, equivalence |
| C17 | all parsers | range predicate preserved by every parser |
| C18 | parse_fingerprint | grammar, equivalence |
| C19 | parse_imageattr_tokens | invariant of the loop |
| C20 | fmtp_block | grammar of tone lists |
| C21 | fmtp_parameter fold | last-occurrence spec, permutation lemma |
| C22-C25 | Media.v, Session.v APIs | operations as data type, induction over histories |
| C26-C29 | Anon.v | invariant: map entries are below the counter, images distinct |
| C28 | to_byte_vec | witness by vm_compute, positive part below 256 |
| C30 | Anon.v | simulation between two runs related by a renaming |
| C31 | Anon.v | case analysis |
| C32, C33 | Anon.v | witness by vm_compute |
| C34 | Address.v | direct |
| C35 | Address.v, Session.v | invariant of accepted sessions |
| C36 | attr_from_str | case analysis over the dispatch table |
| C37 | parse_sdp | scan of inserted line |
| C38 | media_loop | corollary of C08 |
| C39 | trim, parse_sdp_line | trim lemmas |
| C40 | parse_sdp_line, parse_sdp | direct |
| C41 | show_session, lines | split/join lemmas |
| C42 | parse_simulcast | grammar |
| C43 | show_perr | direct |
| C44 | parse_connection, parse_origin | grammar, equivalence |
| C45 | Anon.v | invariant of the map; numbering by first occurrence |
| C46 | Anon.v | sensitive fields listed in order, equality with the masks |
| C47 | every line parser | grammar and meaning relation `line_means`, equivalence, functionality |
| C48 | error kinds of every line parser, parse_sdp | relation `line_unsupported`, equivalence; documents |
| C49 | Tools.v: error.rs | a reader's view of the serialized fields; numbers and lines of all obtainable errors |
| C50 | Tools.v: file_parser.rs | relation `exits`, equivalence with the model of `main` |
| C51 | Anon.v, Show.v, parsers | field by field: masks are words, domains, small ports; values alike up to sensitive fields have the same well-formedness (PMask.v), then C10, C11 |
| C52 | Media.v, Session.v API, Show.v, parsers | invariant over all call sequences, then C10 |
| C53 | Show.v | derivations built along the printer; the converse by inversion of derivations, line by line |
| C54 | Session.v, Media.v | the grammar of documents of C03 (`document`), read line by line; a block without m= lies within one section |
| C55 | Show.v, AttrParse.v, Session.v | for each of the four lossy attributes, what the printed text is read as (C12, backwards); lines that are read or skipped one by one; a counter for the rounds |
| C56 | Session.v, Media.v | the parsed lines split at the m= lines in one way only; the structural rules hold for a session exactly if they hold for the head with each section |
| C57 | Serde.v: derived `Serialize` | a schema of every type; output formats are injective on values of one schema; each impl is injective |
| C58 | the calls of Media.v and Session.v, `parse_sdp` | an invariant between the lines of a draft and the session, kept by each call |
| C59 | Show.v | printed lines have one meaning (C47, C11), and a list of items assembles to one session |
| C60 | Ext0.v | rounding is nearest because magnitudes grow with bit patterns; candidates per digit count are the decimals around the value, and the first that reads is the best |
| C61 | Net.v, Address.v | what each reader consumes is described by the grammar, both ways; the zero run found is the first longest by an invariant of the scan |
| C62 | AttrParse.v, Media.v, Session.v | each rule is inverted into its parts, which are what the line means (C47); documents through C08 |
| C63 | Anon.v | the distinct masks of a run are the codes 1..min(n, capacity) in that order, so a second run numbers each by itself; a value is its blanked form (C31) and its fields |
| C64 | AttrParse.v, Session.v | sizes of the pieces in what a line means (C47), summed along the assembly of a session (C08) |
| C65 | Show.v, Session.v | lengths of what each item prints against its size and its ranges (C17), then C64; floats by the candidates of C60 |
| C66 | Session.v, Media.v | the cases of the assembly (C08) with their messages; exactly one applies to a text that is refused |
| C67 | Session.v, AttrParse.v, Media.v, Str.v | the unsupported lines (C48) with their messages; quoting is a prefix code |
| C68 | Session.v, Media.v, Address.v, Num.v | rules as pairs of a condition and its errors, one per step of the parser; numbers by their digits |
| C69 | AttrParse.v, Address.v, Num.v, Session.v | rules as in C68, one per step of each attribute parser; the last refused line decides |
| C70 | Session.v and all parsers | from C47, C48, C66-C69 over the scan of lines |
| C71 | Log.v | the logging program = trace per line + the silent program; then C47, C12 |
| C72 | Output.v | case analysis; C70 for the kept lines put together |
| C73 | SpecErr.v | table of texts; case analysis of pairs |
| C74 | Vectors.v | the loops with the vector; induction over the lines |
| C75 | AttrParse.v, SpecFloat.v | the tokens of a line of the rule; decimals of up to four places that differ have different nearest f32 |
| C76 | Debug.v, Serde.v | induction on the depth of the value: names and numbers are runs of word chars, quoted strings end at the first bare quote, brackets and commas cannot start a value |
| C77 | AttrParse.v, Media.v, Session.v | every parser's errors fit a bound given for its argument; goal-directed as for C01, with the lengths of pieces of strings; sequence errors through the bounds of C65 |
| C78 | Session.v, Media.v | the place of a line found in the description of accepted texts (C08, C06); rules of a session with one item more or less; documents of C62 by induction over added lines |
| C79 | Show.v, AttrParse.v | the shortest decimal of a float next to a number of ten-thousandths is that number; the printed text built by the rules of C75 |
| C80 | Show.v, AttrParse.v, Media.v, Session.v | the values read from a line of a rule are within the limits of the rule; the printed text is built by the rule from them |
| C81 | Show.v, Session.v, Media.v | the items of a session come from lines of the text (C05–C08), each printed as in C80 |
| C82 | Anon.v, Show.v | masks are numbered names, addresses and ports (C45); the fields that are kept follow the rule as in C80 |
| C83 | Anon.v, Show.v, Session.v, Media.v | every part of a clone is masked by the anonymizer with some history (C82), the others are printed as in C81 |
| C84 | Anon.v, Show.v, Session.v, AttrParse.v | the mask is one of 256 byte sequences for each hash, every such line is rejected and one of the lines of the printed text |
| C85 | AttrParse.v, Media.v, Session.v | these parsers use their text only through split_whitespace; documents as in C39 |
| C86 | AttrParse.v, Session.v | these parsers look at the first words only, or count them; documents as in C39 |
| C87 | Fuzz.v | decoding and encoding are inverse, by the ranges of the bytes; C01 |
| C88 | Disk.v, Fuzz.v, Tools.v | the first line begins with the mark, whose type is then too long; decoding as in C87; C50 |
| C89 | Session.v, Media.v | C08 and C06: each item comes from a line, and lines are separated by line feeds |
| C90 | Session.v, Media.v | C08: only the first three lines are of these types; cutting a text into lines |
| C91 | Anon.v, Show.v, Session.v | line by line through the clones; masks have no line feeds and are not empty (C45), C41 for the lines of the texts |
| C92 | Anon.v, Show.v, Session.v | C91, and following one section or candidate through the clones |
| C93 | Session.v | C08 and C90: the first line read is the v= line, and there is no other; C05 for the line numbers |
| C94 | Session.v, Media.v | C08: the items of the shorter text are a prefix of those of the longer one, and m= lines divide them in one way |
