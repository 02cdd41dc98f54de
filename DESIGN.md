# Formal model of magiclen/validators

Everything under `rocq/theories` is Coq 8.16.1, standard library only.
The derive macro of the crate is a code generator; the model describes, for every
attribute configuration, the program that the macro generates, as a Gallina
function taking the configuration as an argument.

## 1. Conventions of the model

* A Rust `&str` is the list of its UTF-8 bytes (`list N`); for `line`/`text` it is the
  list of its characters (scalar values, `N`) and `s.bytes()` is the UTF-8 encoding
  of that list, which is modelled too.
* A Rust `Result` is `outcome`: `Ok v`, `Err e`, or `Panic`. Every indexing, slicing,
  `unwrap` and (debug) underflow that the Rust code can perform is modelled as an
  operation that can return `Panic`. So "never panics" is a theorem, not a convention.
* Integers are `Z`/`N` with explicit type bounds. `usize` subtraction is a function of
  the build profile (debug: panic on underflow, release: wrap modulo 2^64). That the other
  sums, differences and casts need no bounds is a theorem (C109, over `ArithModel.v`).
* `quote!` fragments chosen by `match` on the configuration become `match` in the model.

## 2. External code

| code | how it appears |
|---|---|
| `core` integer `FromStr`/`Display` | modelled concretely (`IntStr.v`) |
| `core::net` `Ipv4Addr`/`Ipv6Addr` `FromStr`, `Display`, predicates | modelled concretely (`NetModel.v`) |
| `idna::Config::to_ascii` | function argument, universally quantified; laws are explicit hypotheses |
| `url::Url::parse`, `phonenumber`, `byte_unit`, `serde_json` | function arguments, universally quantified |
| `data_encoding` decoders | modelled concretely from RFC 4648 plus the crate's documented behaviour |
| `serde` data model | tokens (`Str`, `Bytes`, `I64`, ...); a format is a function from the serialised token to the token shown to the visitor |
| `char::is_whitespace` | modelled concretely (Unicode White_Space list) |
| floats | `SpecFloat` from the Coq standard library (no axioms) |
| `core` float `FromStr` | scanner modelled concretely, conversion by its contract: nearest, ties to even (`FloatModel.v`, C77); the other number theorems hold for any function in its place |

## 3. Plan per property

| property | what is modelled | how it is proved |
|---|---|---|
| C01, C04 | generated range check for integers, all shapes | case analysis on the configuration, set semantics as specification |
| C02 | trait default chains and the overriding methods for all 12 types | case analysis on types, arithmetic |
| C03 | integer text parser with checked accumulation | induction on the digits |
| C05, C06 | generated float check on `spec_float`, f64->f32 rounding | order lemmas on `SFcompare`; C06 expected to be refuted by a rounding witness |
| C07 | bit/byte check, oracle for the size library | as C01 |
| C08, C09 | length check; scoping of the generated code | C09 expected to be refuted (`length` unbound when min = max) |
| C10, C53 | attribute parsers for `range`, `length`, `char_length` | induction on parameter lists; C10 expected to be refuted for the literal form |
| C11-C15 | all 16 generated loops of line/text | loop invariants by induction; C13, C14 expected to be refuted with `trimmed_min` |
| C16, C17 | the decision tree | equality with the table for all byte lists |
| C18-C21 | the scanner | induction; regular-language specification |
| C22-C24 | RFC 4648 decoder/encoder and the serde impls | induction on blocks; C23, C24 expected to be refuted |
| C25-C30 | separator logic with explicit bounds checks | C26 and C27/C30 expected to be refuted (short input; separator printed as a number) |
| C31-C35 | splitting, brackets, ports, std address parser/printer | grammar specification; round trip of address printing |
| C36-C41, C55 | domain and host generated parsers | case analysis, for every IDNA function |
| C42-C47 | the email scanner with positions | loop invariants; several expected to be refuted |
| C48, C50, C52 | visitors per validator | case analysis on tokens |
| C49 | the generated `deserialize` call graph with fuel | induction on fuel: it never returns |
| C51 | the country loop | permutation invariance |
| C54 | prefix test and host classification | string prefix lemmas |
| C56-C58 | the email scanner, as C42-C47 | grammar lemmas; all three expected to be refuted in part |
| C59, C63, C65 | visitors per validator, the way serde_json presents a value | case analysis on tokens |
| C60, C61 | the prefix test and the URL library as an oracle | C61 expected to be refuted for texts the library trims |
| C62 | `Serialize` of `PhoneNumber` (struct/map) against the string-only visitor | refuted |
| C64 | the json validator's numeric entry points | arithmetic on the JSON number ranges |
| C66-C68 | every `build_from_meta`, from the syn metas | table lemma per validator: accepted iff well written; C68 refuted for `Unlimited(..)` |
| C69, C70 | the derive entry point, the struct shape checks, the struct literals and field accesses of the generated code | case analysis on validators and shapes |
| C71 | composition of C66, C69, C70 with the exact acceptance theorems | composition |
| C72 | the conflict checks of the attribute parsers | a witness text for every accepted configuration |
| C73 | the validators under the three settings of one policy | composition of the exact acceptance theorems; expected to be refuted for decoded padding and mixed separators |
| C74 | where each error is raised | step-by-step comparison with the run in which every policy is Allow, then C73 |
| C75 | where each error is raised, against the sentence in the documentation of its variant | inversion of each error site with the exact specifications of the parts read before it |
| C76 | pairs of validators on the same text | the exact-acceptance theorems of both sides, joined; the name readers share the grammar of [DomainSpec] |
| C77 | core's `dec2flt` scanner and an exact integer conversion | nearest-even proved of the shift-and-round loop of `SpecFloat`, uniqueness of the nearest-even float, grammar lemmas for the scanner |
| C78 | the regex, url, semver and semver_req handlers, the library calls as arguments | inversion of the attribute parser (C66): the run-time `Regex::new` is given a pattern the macro compiled |
| C79 | every `deserialize` impl on a deserialiser that presents text, whatever is asked | case analysis on validators and hints; expected to be refuted for json and for the impls of C49 |
| C80 | `CollectionLength` of the decoded types, under a length validator | lengths of the encodings in C22, summed over the pieces |
| C81 | `Display` and `From` of `Host` | the exact host language (C39) on the printed form; uniqueness follows from reading back |
| C82 | writing range bounds as literals (`quote` panics on a float that is not finite) | case analysis; which literals overflow by the rounding theorem of C77 |
| C83 | the `expect` texts of the visitors, as bytes | injectivity of the texts: case analysis on policies, splitting lemmas for numbers; expected to be refuted for domain, email, line/text and byte |
| C84 | the integer constants the handlers write into the generated program, with their types | case analysis on ranges and lengths over C66 (what an accepted attribute says); expected to be refuted for `char_length(max = usize::MAX)` |
| C85 | the defaults of every `build_from_meta`, against the "By default" lines of the documentation | from C66: appending the written-out default to the arguments leaves the relation between attribute and configuration unchanged |
| C86 | the two `Cargo.toml`, every `cfg` of the two crates, the prelude, and the paths the generated code mentions, as tables over sets of features | closure of a feature set under `enables` is inductive; each theorem by cases over the tables; expected to be refuted where a path bypasses the prelude |
| C87 | the `impl` blocks each handler generates, against the `Traits:` lines of the documentation (a table in the property file) | case analysis; with C86 the trait is also exported; expected to be refuted where the documentation names another trait |
| C88 | the `Display` texts and axum responses, over the error constructors of all models | a table from message to (parameter, value) in the property file, then C74; integers: case analysis of core's reader; distinctness by computation |
| C89 | the parameter loop of every `build_from_meta`, `panic.rs` and the word parsers | an inversion lemma for the loop (unknown name, repeated name, or a value parser's error), the possible errors of each parser; texts: entries between marks, by induction |
| C90 | the variable that each fragment of the integer range check reads, and the parameter of the function it stands in | case analysis on the range over C84 (bounds are values of the type); expected to be refuted for unsigned_integer |
| C91 | the visitors of DeModel.v, called with an integer of any width and of the sign of its value | case analysis on the width over C02 and C07; expected to be refuted for signed_integer and byte |
| C92 | `schema_input`: a format that answers the hint of the impl and nothing else | evaluation of the visitors of DeModel.v; expected to be refuted for the impls that call `deserialize_any` |
| C93 | `HygieneModel.v`: every identifier of the generated code with the items declared around it, and Rust's name resolution | case analysis over the handlers; expected to be refuted: the code says `Result`, and names the struct inside `deserialize<D>` |
| C94 | `EmailModel.v`, `EmailSpec.v` | from the exact description of the accepted texts; expected to be refuted for what is printed: the quotes of the local part are deducted from the domain part |
| C95 | phone's validator and its `expecting` text, over the order in which the macro iterates its hash set | values: from C51; errors: the error is that of the first unreadable country; texts: cut at the commas; expected to be refuted for errors and texts, which follow the order |
| C96 | the visitors of DeModel.v and of `validators::Result`, over every visitor call that a format can make | a visitor can only panic where a parse method does; then the no-panic theorems of each validator, without the side conditions that only concern the value; expected to be refuted for mac_address, email and json, exactly where C26, C42 and an `unwrap` say |
| C97 | the constants that the feature `test` adds to a struct (`common/test.rs`, the `cfg(feature = "test")` blocks) | the constants of two accepted declarations agree only if their configurations do; read with the oracles of `/repo/validators/tests` they decide what is accepted, for every input; regex has none, and the order of V_COUNTRIES is left open (C95) |
| C98 | the range, length, case, separator and country models | from the exact descriptions of C01 - C12, C25, C28 and C51, with looseness defined on the bounds as written; expected to be refuted for trimmed_min (C13), countries (C51) and separators that are digits |
| C99 | `int_parse`, `int_parse_str`, `bool_parse_int`, `json_parse_int` and `derive`, all of which take the pointer width | for two widths at once; the macro part needs the reading of an attribute to be monotone in the parser of its literals; expected to be refuted for the bounds of isize and usize |
| C100 | the parsers of addresses, names, numbers, words, hexadecimal texts, URLs and e-mail addresses | step by step for two texts related byte by byte: every comparison is with a byte that is not a letter, or ignores case; idna and url are given the same law; expected to be refuted for separators that are letters and for the tag of an IPv6 address in an e-mail address |
| C101 | the accepted languages of the text validators and their printers | from the exact descriptions already proved (C03, C16, C19, C22, C25, C28, C31, C36, C39, C44), and directly for numbers; the law for idna is that it refuses ASCII controls and spaces (STD3 rules); expected to be refuted for the comments of e-mail addresses, which nothing looks at; url, semver, regex, phone and byte sizes are left to their libraries, line and text to C13 |
| C102 | the printers of identifiers, addresses, domains, hosts and e-mail addresses, on values that were returned | from the round trips where they hold (C33, C37, C41); for identifiers from the fixed widths; for e-mail addresses by cutting the printed text at the first character that cannot belong to a part; expected to be refuted for the final dot of a domain and for names that read as IPv4 addresses |
| C103 | the validators with several policies, all combinations | from the acceptance theorems (C01–C05, C11, C12, C25, C28, C31, C36, C39, C44); for e-mail addresses after showing that the text and the shown value determine the parts of the text; expected to be refuted for the trimmed length (C13) and for separators that are digits (C98) |
| C104 | the printers of addresses, identifiers, domains, hosts and e-mail addresses; that the library verifies DNS lengths is a hypothesis (`dns_length`) | by adding up the widths of the parts, from the shapes of accepted values (C25, C28, C31, C36, C39, C44, C94); expected to be refuted for the port of a domain and for separators |
| C105 | the loops of line and text, and the length tests of email, mac_address, uuid and boolean | verdict on `s ++ t` for all `t`: lengths in characters because only `max + 1` are taken; in bytes by induction on the loops; expected to be refuted where the inner loop has no check |
| C106 | the authority strings; a grammar of RFC 3986 stated in `PropUri.v` | from the shapes of accepted values (C31, C36, C39) and the text forms of addresses; that the grammar determines host and port is proved too; expected to be refuted for the port of a domain (C37) |
| C107 | `CallModel.v`: every call of the generated code on the struct, Rust's lookup (inherent functions first), and the methods that make such calls, with the user's function as a parameter | case analysis over the handlers; expected to be refuted for `Self::parse_u8` and the like and for `self.get_domain_non_fully_qualified()` |
| C108 | `to_email_string`; the grammar of RFC 5321 (with RFC 6531) stated in `PropMailbox.v` | from the exact description C44: dotted runs (C45), and the run of escapes of the quoted loop read as quoted pairs; that the grammar determines both parts, and where a mailbox in angle brackets ends, is proved too; a further law for idna: no empty labels (DNS length verification). Comments are not part of SMTP and are left out; expected to be refuted by final dots (C45), dropped quotes (C46), tabs and escaped spaces (C58) |
| C109 | `ArithModel.v`: the functions with arithmetic once more, every `+`, `-`, `+=` and `as` replaced by one that panics (debug) or wraps (release) outside its type, for a given width of pointers | each equals the function of the other model files; the bounds come from the length of the text (at most `isize::MAX` bytes, a fact about Rust objects) and, for email, from the 320 bytes; expected to be refuted by `64 - local_part_length` (email/mod.rs:904, C42) and by `max + 1` for a maximum of `usize::MAX` (C84) |
| C110 | `SpellSpec.v`: a relation between attributes (syntax only), closed under respelling a parameter at any depth; the derive macro of `MacroModel.v` | every reader of a parameter agrees on two spellings of it, then the loop, the handler and the whole macro; closed under symmetry and transitivity; expected to be refuted for the readers that know one form only (`separator`, `serde`, `countries`, `range`) and for range expressions with negative or crossing bounds |
| C111 | `StdSpec.v`: the ABNF of RFC 3986, 1123, 4122, 7042 and 8259, without reference to the model; the mailbox of C108 | the grammar of the address texts of `NetSpec.v` is shown equal to the ABNF of the standard, the rest through the exact characterisations (C25, C28, C36, C39, C44, C77); the law used of idna is that host names come out in lower case; expected to be refuted for quoted local parts, where the code asks for backslashes that SMTP does not, and for the empty port of RFC 3986 |
| C112 | `AtonSpec.v`: the texts that `inet_aton` reads and their addresses, without reference to the model | ip: a canonical text is read as one address only (induction over the parts); host, domain, email: the canonical spelling is kept out, every other spelling is a host name and so accepted by C111; http: the url library's host is checked, given the law of the URL standard that no name is a number; expected to be refuted for host, domain and email |
| C113 | `CrashModel.v`: the macro once more with every `unwrap` of the handlers, idents and types of fields as syn keeps them, and the literals written while the attribute is read; `unwrap` of `syn::parse2` on fixed tokens and the arm `_Nothing` are left out | each handler equals the one of `MacroModel.v` where it does not panic; readers of parameters never panic (case analysis), then the loop by induction gives the exact panicking attributes; expected to be refuted for infinite bounds (C82) |
| C114 | `IanaSpec.v`: the IANA special-purpose registries as tables of blocks, independent of the list the code uses | blocks as intervals of numbers, then linear arithmetic; the difference between the registry and the code is given exactly; expected to be refuted for the shared address space |
| C115 | the accepted languages of the text validators and their printers, as for C101 | from the exact descriptions (C03, C16, C19, C22, C25, C28, C31, C36, C39, C44), and directly for numbers; the law for idna is that the ASCII characters it takes are letters, digits, hyphens and dots (STD3 rules); expected to be refuted for the local parts of e-mail addresses, whose atoms have quotes and shell characters among them |
| C116 | the parse functions of all validators with policies, ranges or lengths | one direction from the meaning of errors (C04, C05, C14, C74) and by following where an error is made; the other by a witness text for each configuration and error, for idna functions that keep three names; expected to be refuted for policies that leave nothing to refuse, and for the padding errors of the decoded validators |
| C117 | the parse methods of `ValueSerde.v`, the visitors, conversions and rocket impls of `DeModel.v`, as seventeen ways of getting a value | each way ends in a parse method on the argument it was given (case analysis over the kinds and calls), then the exact descriptions of the accepted inputs (C03, C05, C07, C11, C19, C22, C25, C31, C36, C39, C47, C51, C54); the converse by a text for each value; domains and hosts only for idna functions that make no IPv4 address of a text that is none (C36) |
| C118 | `CollsModel.v`: the seven collections as lists of entries, filled one element at a time as std and serde do (trusted; the order of the entries is not that of a tree, heap or hash table) | invariants of the filling loop (keys without repetition, last value wins), then C08; expected to be refuted for the size of the input of sets and maps |
| C119 | `EmailModel.v` as in C44; the grammar of RFC 5321 is that of C108 (`PropMailbox.v`) | C44 gives the validator's reading, an induction over quoted content shows where the two readings can part; expected to hold without comments only |
| C120 | models of C03, C20, C25, C28, C31, C36, C39, C44 and C77 | the exact descriptions of acceptance determine the value from the meaning; for numbers the rounding of equal fractions; expected to fail where the text is kept (base texts, addresses in domain, quoted local parts) |
| C121 | `EmailModel.v` as in C44; the grammar of RFC 5322 with its comments is stated in `PropAddr.v` | as in C119, the two readings of one text are compared piece by piece; expected to fail where a comment holds a closing parenthesis, nested or quoted |
| C122 | `MessageModel.v` (the Display texts) with the parsers of C88; library texts are arguments | by cases on the errors; the errors that wrap a library's are shown to come from the library |
| C123 | the models of domain, host, email and phone with the library function as argument | two runs with different library functions are compared; expected to fail for the length of names in domain and host, which have no limit of their own |
| C124 | the models of line, text and email | the characters are the ones of Unicode (line ends of UAX #14, category Cc, Bidi_Control), not the sets of the code; expected to fail outside ASCII |
| C125 | `ExpectModel.v`, `DescrModel.v` (constant descriptions and those of `validators::Result`), `DeModel.v` | descriptions are compared as texts over all attributes; what they ask for is a table written from their words; expected to fail for numbers in JSON and for `Result` |
| C126 | the models of the typed validators | only the first byte of the text and of what is printed; the rule of UTS #46 on hyphens is a hypothesis on the IDNA library; expected to fail for email and base64_url. line, text and regex are free texts and not part of the claim |
| C127 | the models of ip, mac_address, uuid, email, http_url, domain and host | pairwise, from the exact grammars of C25, C28, C31, C36, C39 and C42-C47, all attributes; expected to fail for domain, whose labels may be digits and hyphens |
| C128 | the models of the text validators | a text is never an accepted text followed by the delimiter: by the alphabets of C115, the number of digits of identifiers, the first at sign or quote that is not escaped, and the white space of lines |
| C129 | `num_parse_str`, `num_parse_f32`, `num_parse_f64`, `fcast`, `int_parse_str` | the specification of rounding is monotone (two numbers that round the wrong way round are equal and at the same tie); the conversion of a float is shown to be the rounding of its value; acceptance by C03 and C77 |
| C130 | `int_parse_str`, `num_parse_str`, `bool_parse_str`, `base_parse_str`, `dec_parse_str`, `mac_parse_str`, `uuid_parse_str`, `ip_parse_str`, `domain_parse_str`, `host_parse_str`, `email_parse_str` and their printed forms | every accepted character is checked against NUL and slash, and one that is no dot is found; for names by the laws of `to_ascii` and a new one: a text of dots only is refused (`idna_not_dots`, proved of the fragment) |
| C131 | `host_eqb`, `host_cmp`, `host_hash`, `protocol_eqb`, `protocol_cmp`, with `host_parse_str` and `email_parse_str` | the first difference decides, which is also how numbers in a base compare; no returned name has the byte 255 in it, and addresses of one kind have one length |
| C132 | `int_parse_str`, `num_parse_str`, `bool_parse_str`, `base_parse_str`, `dec_parse_str`, `mac_parse_str`, `uuid_parse_str`, `ip_parse_str`, `domain_parse_str`, `host_parse_str`, `http_parse_str`, `email_parse_str` and their printed forms | the first character of every accepted text, by the grammars proved for C04-C54; padding never fills a block |
| C133 | `res_cmp`, `res_eqb`, `result_impl`, `error_traits`, `into_std_result` | case distinction; the order laws of the parts give those of the whole |
| C134 | `int_parse_str`, `num_parse_str`, `bool_parse_str`, `base_parse_str`, `dec_parse_str`, `mac_parse_str`, `uuid_parse_str`, `ip_parse_str`, `domain_parse_str`, `host_parse_str`, `email_parse_str` and their printed forms | a decoder of queries written in `PropQuery.v` from the WHATWG standard; the character sets of C115 leave the plus sign |
| C135 | `ip_parse_str`, `ipv4_parse_str`, `ipv6_parse_str`, `host_parse_str`, `domain_parse_str`, `email_parse_str`, `line_parse_str`, `http_parse_str`, `http_ftp_parse_str` | the outcome under free policies fixes the branch; the tests of that branch are compared with the rules of the specifications of C31, C36 and C39 |

When the full statement is false of the faithful model, the theorem is called
`..._refuted` and gives a witness; the largest true part is `..._partial`.

Not expressible here: `axum` extractors and the `rocket` request types beyond delegating to `parse_str`
(the frameworks are external; C79 assumes what their deserialisers present), and regex matching
(C78 is about the call, not the match).

## 4. Trusted base

* The kernel of Coq 8.16.1 (`coqc`), and the reading of the Rust source recorded in the
  comments of the model: every model definition cites the file and lines it stands for.
* Axioms: none. Every property theorem is followed by `Print Assumptions`, and each prints
  `Closed under the global context`. (Loading `Lia` for booleans also loads
  `Coq.ssr.ssrunder`, a module of the standard distribution that declares seven
  opaque constants; no theorem depends on them.)
* No kernel check is switched off, there is no `Admitted`, no functor or module type, and no plugin.
* Libraries that `/repo` calls, as in section 2. Those modelled concretely are trusted to be as
  their documentation says; those that are function arguments are not trusted at all, except for
  the laws that a theorem states as hypotheses. These laws are satisfiable: `IdnaFrag.v` gives a
  fragment of UTS 46 that meets them, and the Examples instantiate the others.

Assumptions about libraries that the concrete models make:

* `core`: integer `FromStr` accepts a sign and decimal digits with overflow checks; `Display` of
  `Ipv6Addr` is that of Rust 1.70 and later; casts between floats round to nearest, ties to even;
  float `FromStr` reads sign, digits, point and exponent as `dec2flt` does (an exponent stops growing
  at 65536) and gives the nearest float, ties to even.
* `data-encoding`: `BASE32`, `BASE64`, `BASE64URL` and their `_NOPAD` variants are strict about
  trailing bits and padding, as documented; the generated code selects between them as modelled.
* `serde_json` without `arbitrary_precision`: integers outside `i64`/`u64` are floats, a
  non-negative integer is presented with `visit_u64`, the text of a finite float reads back exactly,
  NaN and infinities become `null`.
* `phonenumber`: `PhoneNumber` derives `Serialize` as a struct.
* `syn` 3: a negative literal in list form is a single literal; keywords are not meta paths; a
  `Punctuated` list of metas may end with a comma.
* `quote`: the literal of a float that is not finite panics, every other number has a literal that denotes it. The text of
  a literal token (C83) is a function argument; what is used of it is the hypothesis `literal_text`.
* `Debug for char` on the characters below 256 is what core does (`char_debug`, C83).
* Cargo: `pkg/feature` on an optional dependency also enables the feature named `pkg`; requested features are closed under
  the tables; `validators-derive` gets its features from `validators` only (C86; `C86_unified_features` shows what happens otherwise).
* `byte_unit`: `Bit::parse_str`, `Byte::parse_str` and the largest size are arbitrary;
  its own serde impls (used by `bit`) are an arbitrary function.

## 5. What is modelled and what is not

Modelled, with the files of `rocq/theories`:

| source in /repo | model | properties in |
|---|---|---|
| `validators-derive/src/lib.rs`, `supported_validators.rs`, struct checks of all handlers | `MacroModel.v`, `CrashModel.v` | `PropMacro.v`, `PropCrash.v` |
| `validators-derive/src/common/*.rs` (tri_allow, allow, range, range_option, length, case_option, separator_option, serde_options, rocket_options, boolean, number, type_enum, attributes) | `RangeModel.v`, `LengthModel.v`, `MetaModel.v`, `TokensModel.v` | `PropTokens.v`, `PropAttr.v`, `PropMeta.v`, `PropPolicy.v`, `PropSat.v`, `PropDefault.v`, `PropSpell.v` |
| the `let expect = ..` blocks of all `validator_handlers/*/mod.rs`, the `expecting` texts of `result/serde_traits.rs` | `ExpectModel.v`, `DescrModel.v` | `PropExpect.v`, `PropDescr.v` |
| the constants of the generated `handle_range`/`handle_str` blocks | `ConstModel.v` | `PropConst.v` |
| `validator_handlers/signed_integer`, `unsigned_integer`; `validators/src/traits/validate_{signed,unsigned}_integer.rs` | `IntModel.v`, `IntStr.v` | `PropInt.v`, `PropNames.v` |
| `validator_handlers/number`, `traits/validate_number.rs` | `NumberModel.v` | `PropNumber.v` |
| `validator_handlers/bit`, `byte` | `SizeModel.v` | `PropSize.v` |
| `validator_handlers/length`, `traits/validate_length.rs` | `LengthModel.v` | `PropAttr.v` |
| `validator_handlers/line`, `text` | `LineModel.v`, `Utf8.v` | `PropLine.v`, `PropLoose.v` |
| `validator_handlers/boolean`, `traits/validate_{boolean,char,bytes}.rs` | `BooleanModel.v` | `PropBoolean.v` |
| `validator_handlers/base32`, `base64`, `base64_url` and `*_decoded` | `BaseModel.v`, `CodecModel.v`, `BaseSerde.v` | `PropBase.v` |
| `validator_handlers/mac_address`, `uuid`, `traits/to_{mac_address,uuid}_string.rs` | `MacModel.v`, `MacSerde.v` | `PropMac.v`, `PropMacPrint.v`, `PropPanic.v` |
| `validator_handlers/ip`, `ipv4`, `ipv6`, `validators/src/functions/ip*.rs`, `traits/to_uri_authority_string.rs` | `IpModel.v`, `NetModel.v` | `PropIp.v` |
| `validator_handlers/domain`, `functions/domain.rs`, `traits/qualify_domain.rs` | `DomainModel.v` | `PropDomain.v` |
| `validator_handlers/host`, `models/host.rs` | `HostModel.v`, `DisplayModel.v`, `KeyModel.v` | `PropHost.v`, `PropDisplay.v`, `PropKey.v` |
| `validator_handlers/email`, `traits/to_email_string.rs` | `EmailModel.v` | `PropEmail.v`, `PropEmailLen.v`, `PropPanic.v` |
| `validator_handlers/http_url`, `http_ftp_url`, `models/protocol.rs` | `HttpModel.v`, `KeyModel.v` | `PropHttp.v`, `PropKey.v` |
| `validator_handlers/phone` | `PhoneModel.v` | `PropPhone.v`, `PropBuild.v` |
| `validator_handlers/regex`, `url`, `semver`, `semver_req` | `LibModel.v` | `PropLib.v` |
| `traits/collection_length.rs` (decoded types; std's and serde_json's collections) | `CollModel.v`; `CollsModel.v` | `PropColl.v`; `PropColls.v` |
| `validator_handlers/json`, `traits/validate_json_value.rs`, `to_json_string.rs` | `JsonModel.v` | `PropJson.v` |
| serde impls of all handlers, `validators/src/result/*` | `Serde.v`, `DeModel.v`, `ValueSerde.v`, `ResTraitModel.v` | `PropSerde.v`, `PropCompact.v`, `PropResult.v`, `PropPanicDe.v`, `PropResTrait.v` |
| `Cargo.toml` of both crates, `lib.rs:935-1028` (prelude), the `cfg` attributes, names in generated code | `FeatureModel.v` | `PropFeature.v`, `PropTrait.v` |
| the identifiers without a path in the `quote!` blocks of all handlers and of `common/rocket.rs` | `HygieneModel.v` (one namespace; no lifetimes, variables, methods; not the code of feature `test`; Rust's resolution order is trusted) | `PropHygiene.v` |
| the calls on the struct in the `quote!` blocks of all handlers and of `common/rocket.rs` | `CallModel.v` (the user's traits and the constants of feature `test` left out; Rust's lookup is trusted) | `PropCall.v` |
| `validators-derive/src/common/test.rs`, `validators/src/test/*.rs`, the `cfg(feature = "test")` blocks of all handlers | `ReflectModel.v` (values of the constants, not their types) | `PropReflect.v` |
| `validators/src/errors/*.rs` (`Display`), `errors/axum_traits.rs` | `MessageModel.v` | `PropMessage.v`, `PropMessageB.v`, `PropMessageC.v` |
| the arithmetic of the string and byte handlers (base*, mac_address, uuid, ip*, domain, host, line, text, email) | `ArithModel.v` | `PropArith.v` |
| `validators-derive/src/panic.rs`, the `correct_parameters` arrays, messages of `tri_allow.rs`, `allow.rs`, `case_option.rs`, `flag_options.rs`, `number.rs`, `boolean.rs`, `range_option.rs`, `separator_option.rs` | `AdviceModel.v` | `PropAdvice.v` |

Properties that compare several validators, configurations or errors are in files of their own: C71 `PropPolicy.v`, C72 `PropSat.v`,
C73 `PropUnion.v` and `PropUnionB.v`, C74 `PropErrors.v`, `PropErrorsB.v` and `PropErrorsC.v`, C75 `PropGuar.v` to `PropGuarD.v`,
C76 `PropRel.v` and `PropRelB.v`, C77 `PropFloat.v`, C85 `PropDefault.v`, C99 `PropTarget.v`, C100 `PropCase.v`, C101 `PropSafe.v`, C115 `PropTame.v`, C116 `PropErrSet.v` and `PropErrSetB.v`, C117 `PropMade.v` and `PropMadeB.v`, C118 `PropColls.v`, C119 `PropRead.v`, C120 `PropSame.v`, C121 `PropAddr.v`, C122 `PropReply.v`, C123 `PropOnce.v`, C124 `PropLines.v`, C125 `PropDescr.v`, C126 `PropOpt.v`, C127 `PropTell.v`, C128 `PropJoin.v`, C129 `PropOrder.v`, C130 `PropFile.v`, C131 `PropKey.v`, C132 `PropSheet.v`, C133 `PropResTrait.v`, C134 `PropQuery.v`, C135 `PropFirstErr.v`, `PropFirstErrB.v`, `PropFirstErrC.v` and `PropFirstErrD.v`, C66 also `PropFirst.v`,
C102 `PropInject.v`, C103 `PropIndep.v`, C104 `PropWidth.v`, C105 `PropPrefix.v`, C106 `PropUri.v`, C108 `PropMailbox.v`,
C110 `PropSpell.v`, C111 `PropStd.v`, C112 `PropLocal.v`, C114 `PropReach.v`.

`*Spec.v` files hold specification vocabulary, `*Proofs.v` (and `AttrMore`, `MetaTables`,
`MetaMore`, `AdviceMore`, `EmailParts`, `EmailDomain`, `EmailMain`, `EmailRound`, `NumberCast`, `NumberRound`,
`StrFacts`, `EntryFacts`) the proofs.

Not modelled: what the `Error` and `Debug` impls of the error types write (that they have `Debug`, and which have `Clone`, is in `ResTraitModel.v`) and the texts of the errors of other libraries that they wrap (function
arguments; those of core's integers are concrete); spans of compile errors, and their texts other than those in `AdviceModel.v` (only which kind of refusal, and for C69 which
struct is asked for; `phone` tests for a repeated `countries` before reading its value, the model shared by all attributes after; `C66_phone_first` proves that this changes only which error is shown); generics of the derived type other than the number of parameters, and where-clauses; field types other than the
numeric ones (left to rustc); the matching of the `regex` crate and the parsing of the `url` and
`semver` crates. Cargo features are modelled by C86
as names (which items exist and which are mentioned), not as type checking. Local variables of the generated code are modelled
as names for the length check (C09) and the integer range check (C90), where a fragment reads a name that is not bound; those of
the other validators were read and found in scope.

## 6. Findings

Each is a theorem `Cxx_..._refuted` about the model; the ones below are stated for the user.

| id | finding |
|---|---|
| C01 | `range(Outside())` accepts every value |
| C01, C90 | `unsigned_integer(range(Outside(min = a, max = b)))` with more than one value between the bounds is accepted by the macro but does not compile: the check reads `i`, the parameter is `u` (unsigned_integer/mod.rs:145, 151) |
| C91 | In CBOR, MessagePack and every other format that stores integers by value, signed_integer refuses every non-negative integer (the visitor has no unsigned method), and byte refuses every size that is not presented with 128 bits (the visitor has only `visit_u128`, byte/mod.rs:223-228); byte_unit writes sizes with 64 bits unless `byte-unit-u128` is on, so a byte value is not read back by its own type although `validators::Result` of it is |
| C92 | boolean, domain, number, signed_integer, unsigned_integer and the six Base32/Base64 validators call `deserialize_any`, so none of their values can be read from bincode, postcard or any other format that stores no types; byte asks for 128 bits although byte_unit writes 64 unless `byte-unit-u128` is on |
| C93 | A module with an item `Result` (such as an alias `type Result<T> = ..`) breaks every derive, since the code says `Result<Self, Self::Error>` without a path; a deserialised struct called `D`, `E` or `MyVisitor` does not compile with 25 of the 31 validators, because `deserialize` declares these names around `#name`; length reads a user's type `D` in the field as the type parameter of `deserialize`. With 46 words, `D`, `E` and `MyVisitor` left alone every name stands for what was meant. |
| C94 | The text behind the `@` has at most 255 octets as written, but `to_email_string` prints up to 257: where the local part needs its quotes, their length is deducted from the growth of the host (`email/mod.rs:1246-1250`, `1264`). `" "@[IPv6:::ffff:100:1](c..c)` with 255 octets behind the `@` is accepted and printed with 257 |
| C95 | The macro keeps the countries of `phone` in a `HashSet` (`phone_attribute.rs:13`), whose order is random per compilation, and generates code in that order: two builds of the same source can report different errors for the same text, and with two countries or more the description in serde errors lists them in another order |
| C96 | Untrusted input can panic the program: deserialising mac_address (separator `Allow`) panics on texts such as `AA:BB:CCDDEE`, and email in debug builds on the texts of C42, in every format and also through `validators::Result`. Serialising a json validator panics when the field's own `Serialize` reports an error, although an error could be returned (`json/mod.rs:220`, `224`) |
| C98 | Taking `trimmed_min` away from a line or text refuses texts that begin with a line break, which the stricter attribute accepted; adding a country to a phone, or leaving the list out, refuses numbers that were accepted; `separator(Allow('a'))` refuses digits that `separator(Disallow)` accepted |
| C99 | `usize` with `range(Inside(max = 4294967296))` is accepted on a 64-bit machine and is a compile error on a 32-bit one |
| C100 | `a@[IPv6:fe80::1]` is an e-mail address and `a@[ipv6:fe80::1]` is not: the tag is recognised in one spelling only, although RFC 5321 compares it without case; a letter as the separator of a MAC address is compared with its case even under `case(Any)` |
| C101 | with comments allowed, `(x⏎Bcc: b@c.org)a@d.org` with a CR LF in the comment is an accepted e-mail address, and `to_email_string` and `Serialize` write the line break out again, so a header can be injected through a validated address; so is `a@d.org()⏎Bcc: b@c.org`, as nothing after the fourth comment is looked at; with `non_ascii(Allow)` the local part may hold U+2028 and U+0085 |
| C115 | `'or'1'='1@d.org` and ``` `id`|{a&b}$HOME#@d.org ``` are accepted e-mail addresses without quotes or comments (every character is an atom character of RFC 5322): a validated address still has to be escaped; with comments disallowed the quotes are not printed, so `"\<script\>alert\(1\)\</script\>"@d.org` prints as markup and `"x\,y\@z.org"@d.org` as two entries of a recipient list |
| C116 | a decoding base validator that parses never returns the padding errors of its error type, whatever the padding policy: a text with wrong padding is a Decode error, while `validate_str` of the same validator returns the padding errors and never Decode; with IPv4 (or IP) set to Must the two-labels Must error is never returned, and with two labels Disallow beside it neither are the local errors; `byte_length(max = 0)` never returns Invalid, `char_length(max = 0)` does |
| C118 | the greatest length of a set or map says nothing about the input: `[7, 7, 7, …]` of any size is accepted with `max = 1`, as the elements are counted after they were put in; a limit on what a client sends has to be set elsewhere |
| C119 | email with `comment(Allow)`: the RFC 5321 mailbox `"\ \"@x.org(c)"@y.com`, whose domain is y.com, is accepted with the domain x.org (a space does not end an escape, and what follows the comment is ignored): a check on the domain can be passed by an address that is delivered elsewhere |
| C120 | email: `"\me"@example.com` and `me@example.com` are one mailbox and two values (the backslash of a quoted pair is kept), so one account per mailbox cannot be had by comparing values |
| C120 | domain: `127.0.0.1:80` and `127.0.0.1:080` are two values with the same port; base32/64 with `padding(Allow)`: `YQ` and `YQ==` are two values for the same data |
| C121 | email with `comment(Allow)`: the RFC 5322 addresses `me(a(b)@x.org(c))@y.com`, `(a(b)you@x.org(c))me@y.com`, `me@(a(b)x.org(c))y.com` and `me(a\)@x.org(b))@y.com`, whose domain is y.com, are accepted with the domain x.org (the first closing parenthesis ends a comment, nested or quoted as it may be, and what follows the last comment is ignored) |
| C123 | domain and host: the text given to the IDNA library has no greatest length (a name of DNS has at most 253 octets), so a text of any size is converted before it is refused; email asks about at most 255 octets |
| C124 | line: U+0085, U+2028 and U+2029, which end a line, the C1 controls and the characters that reorder text are accepted anywhere in a line; the same holds for the local part of an address when non-ASCII is allowed |
| C125 | the JSON document `5` is refused by signed_integer with "expected a signed integer", by number with "expected a number" and by byte with "expected .. or a positive integer"; validators::Result says that it expects `EmailError` (the name of the error type); text describes itself as a line |
| C126 | an e-mail address may begin with a hyphen (`-oQ/tmp@example.com`) and is printed so; a quoted local part loses its quotes, so `"-x"@example.com` is printed as `-x@example.com`; a base64_url text may begin with a hyphen, as it is one of its 64 characters |
| C127 | `http:8080` is a domain and a host with a port, and an http_url (the url library reads 8080 as the host); a UUID with hyphens, a MAC address with dots or without separators is a domain; with the separator `@`, which may be left out between groups, `01234567@89ab` is a MAC address and an e-mail address |
| C128 | with comments, `a@d.org(office), b@e.org` is one accepted address and also two joined by a comma; without comments a quoted local part may hold commas, so splitting at commas is wrong although the list is determined; with `trimmed_min = 0` a line may begin with blanks and a line break, so two lines are also one |
| C129 | different amounts may be read as the same float; a text longer than 65000 bytes with an exponent of 65536 or more is read out of order (C77); an outside range has a hole |
| C130 | an e-mail address may be an absolute path, or, with quotes or a comment, lead to the directory above; the quotes are dropped when it is printed; a base64 text may be an absolute path; so may an identifier have slashes if the attribute says so |
| C131 | the order of hosts is not that of the texts they print; a host of an e-mail address written without brackets is a name even if it reads as an IPv4 address, so it is another key than the bracketed one, which prints alike |
| C132 | an e-mail address may be a formula, also one that reaches another program, and one hidden in quotes is printed without them; so may a base64 or base64_url text |
| C133 | no error type of the crate can be compared or hashed, so the comparison, order and hash that `validators::Result` derives are not there with any of them; four cannot be cloned; with a third parameter other than `()` a Result has no `Debug` |
| C134 | a plus sign, which integers, base64 texts and ports may have, is read as a space in a query, and the text is refused there; an e-mail address, also one whose value shows nothing of it, may bring a parameter of its own into the query, or be read as another accepted address |
| C135 | the host validator reports the rule on labels before the rule on ports for IPv6 addresses, and after it for IPv4 addresses and names; the e-mail validator reports a comment before all other rules if it stands before the domain, and after them if it stands behind it; a line or text with `byte_length` is first looked at for its length, one with `char_length` for its characters |
| C102 | the domains `a.org` and `a.org.` are different values and print alike; the host `127.0.0.1` and the name that `127。0。0。1` is turned into print alike (as in C41) |
| C103 | a least trimmed length also lets control characters through at the start, so a text that passes it together with a greatest length may fail the greatest length alone; a separator that is a hexadecimal digit makes texts without separators fail |
| C104 | a domain that is an IPv4 address with a port is stored and printed with the port as written, so with any number of leading zeros; identifiers with a separator are up to 27 and 44 octets wide (C27); an accepted e-mail address of 320 octets can print as 322 octets, which are then refused |
| C105 | `byte_length` with `trimmed_min` and `max` but no `min`: the inner loop (line/mod.rs:306-322, text the same) has no check against `max`, unlike 117-138, so an over-long text is read to its end and a forbidden character anywhere turns TooLong into Invalid |
| C106 | a domain that is an IPv4 address with a port is printed with two ports, `8.8.8.8:80:80`, which is no authority (from C37) |
| C107 | `Self::parse_i8(i as i8)` and its like (signed_integer, unsigned_integer, `f32` numbers) and `self.get_domain_non_fully_qualified()` (domain/mod.rs:951,975; 947 and 962 name the trait) do not name the trait: an inherent function of that name on the struct is called instead, silently. A constructor `parse_u8` of the user's makes `parse_u16` and `Deserialize` accept what `parse_str` refuses |
| C108 | four kinds of accepted addresses print what is no SMTP mailbox: `a.@example.com`; with comment(Disallow) `"a\@b"@example.com`, printed `a\@b@example.com`; a quoted tab; and `"a\ "b"@example.com`, where the quote after an escaped space is taken as escaped |
| C109 | `64 - local_part_length` is the only arithmetic that leaves its type: 64 letters followed by a comment panic in a debug build and are accepted in a release build, on every machine; `max + 1` with `max = usize::MAX` would be 0 in a release build and let every character through unread, if the compiler did not refuse it (C84) |
| C110 | A range with a negative bound cannot be written as a range expression: `Inside(-5..=5)` is refused ("not a literal") where `Inside(min = -5, max = 5)` is accepted (range.rs:87-100); `separator = Disallow`, `range = Unlimited`, `countries = TW`, `serde(false)` and `padding(Must,)` are refused although the other form of each is accepted |
| C111 | valid mailboxes of RFC 5321 that are refused: `"a@b"@example.com` (the characters `()<>[]:;@,` must be escaped inside quotes, as in no standard since RFC 822), `"a\ "@example.com`, `""@example.com`; and `example.com:`, whose empty port RFC 3986 allows |
| C112 | with local(Disallow) (and ip(Disallow)/ipv4(Disallow)), `127.1`, `2130706433`, `0x7F.0.1` and `0177.0.0.01` are accepted as names by host, domain and email, although `inet_aton` and so `getaddrinfo` take each for 127.0.0.1: every spelling of every local address but the canonical one gets through, in email that one too. Names below localhost (`a.localhost`, which RFC 6761 section 6.3 gives to the local machine) are accepted by all of them, by http_url and http_ftp_url too (`C112_below_localhost`, `C112_http_below_localhost`) |
| C113 | an infinite bound (`number(range(Inside(max = 1e39)))` on `f32`) is the only thing that makes the macro panic; the panic also hides errors in the arguments after it |
| C114 | local(Disallow) lets through 0.0.0.0/8 but 0.0.0.0, 100.64.0.0/10 (so `100.100.100.200`, the metadata service of a cloud provider), 192.0.0.0/24, 198.18.0.0/15 and 240.0.0.0/4; in IPv6 the discard, documentation (3fff::/20), local-translation and segment-routing blocks, and every local IPv4 address behind 64:ff9b::/96 and 2002::/16 (`64:ff9b::127.0.0.1`, `2002:7f00:1::1`) |
| C06 | an `f32` number validator rounds an `f64` before the range check: 16777217 passes `max = 16777216` |
| C09 | `length(min = n, max = n)` generates code that uses an undefined variable |
| C10 | with feature `full`, the literal form `range(Inside(7..=3))` is accepted |
| C13 | with `trimmed_min`, control characters in the leading white space are accepted (a line may start with LF) |
| C14 | with `char_length(trimmed_min, max)`, `TooShort` for a string that is too long |
| C21, C23, C24 | base32/base64: texts of impossible length are accepted; `*_decoded` `validate` and `parse` disagree in both directions; decoded values never survive serde |
| C26 | `mac_address(separator(Allow(..)))` panics on texts such as `AA:BB:CC:DD:` |
| C27, C30 | mac_address and uuid print the separator as a decimal number, so no value with a separator reads back |
| C35 | ports may carry a plus sign |
| C36, C39 | ideographic full stops get IPv4 addresses past `ipv4(Disallow)` and `local(Disallow)` |
| C37 | a domain that is an IPv4 address keeps its port in the `domain` field and prints it twice |
| C41 | hosts: a name may print as an address or as a text that is refused |
| C42 | email: in a debug build, 64 letters and a comment panic (integer underflow) |
| C43, C44, C45 | email: local parts over 64 bytes, any text after the fourth comment, a local part that ends in a dot |
| C46 | email: needed quotes are not printed with `comment(Disallow)`; the quotes are deducted from the length of the domain |
| C48, C59 | JSON integers: signed integers that are not negative, and unsigned integers from 2^64 on, do not come back; `number` refuses JSON integers; `byte` refuses all JSON numbers |
| C49 | `Deserialize` of url, semver and semver_req calls itself forever |
| C50 | `validators::Result` of a bit validator does not deserialise what the bit validator itself does |
| C51, C62 | phone: a text valid for one listed country is rejected when the library cannot read it for another; phone values do not come back from serde |
| C52, C64 | json: values are serialised as strings of JSON text but deserialised as values; large 128-bit integers and NaN become other values |
| C56, C57, C58 | email: `ip(Disallow)` accepts unbracketed addresses; comments are not checked by `non_ascii(Disallow)`; a space does not end an escape |
| C61 | http_url: a leading space the URL library ignores gives `ProtocolError` |
| C68 | `range(Unlimited(min = 1))` is accepted and the argument ignored |
| C69 | http_url and http_ftp_url do not check field names; compile errors of byte, unsigned_integer and phone show the wrong struct |
| C69 | a generic struct (`struct A<T>(..)`) is accepted, but every generated `impl .. for A` omits the generic arguments, so rustc refuses it |
| C72 | `nan(Must)` with `range(Inside(..))` is refused although NaN would be accepted; a non-ASCII separator is accepted although no text satisfies it |
| C73 | base64_decoded: `TQ==TWFu` is accepted under `padding(Must)` but not under `padding(Allow)`; mac_address and uuid: `separator(Allow)` accepts texts with some separators missing, which neither `Must` nor `Disallow` accepts |
| C74 | ip: a text that is no address is refused with `PortMust`/`PortDisallow`; mac_address, uuid: every text of the wrong length is refused with a separator error; email: `non_ascii(Disallow)` refuses with plain `Invalid`, and anything after a bracketed address is reported as `CommentDisallow` |
| C75 | domain: `127。0。0。1` gets `IPv4Must` ("guaranteed not an IPv4") and `LocalMust` ("guaranteed not local"); host: every text starting with `[` gets `AtLeastTwoLabelsDisallow` ("guaranteed at least two labels"); email: `me@127.0.0.1` gets `IPMust` and `LocalMust`; base32/64: `A=` gets `PaddingMust` ("absence of padding is guaranteed"); mac_address, uuid: a text with every separator and more gets `SeparatorMust` |
| C76 | `magiclen.org.` is a domain and no host (hosts are documented as not fully qualified); `YQ==YQ==` is accepted by base64_decoded and refused by base64 with every padding policy |
| C77 | number: `1.00000000000000000001` is accepted under `max = 1.0`, `0.99999999999999999999` is refused under an exclusive `max = 1.0`; an f32 field read through f64 (as from a JSON number) can differ from the same text read directly (`1.00000005960464477539062500000000001`); a 1 behind a million zeros with the exponent 1000001 writes 1 and is read as 0, since core drops the last digits of an exponent of 2^16 or more |
| C79 | a json validator of numbers accepts `1` by `parse_str` and refuses it in a query, form or path; url, semver and semver_req never return there (C49) |
| C80 | `YQ==YQ==` and `YWJjZA==` have the same length and ending, but decode to 2 and 4 bytes |
| C81 | the domains of `me@127.0.0.1` and `me@[127.0.0.1]` differ but print alike, and the first is read back as an address; `::1` printed with port 80 is the address `::1:80` |
| C82 | `number(range(Inside(max = 1e39)))` on an `f32` field passes the macro's checks, then the macro panics (`Literal::f32_suffixed` of infinity) |
| C83 | domain: with `ipv4(Disallow)` or `ipv4(Must)` the description does not tell `at_least_two_labels(Disallow)`, under which `ipv4(Must)` refuses everything |
| C83 | email: the description tells neither the `local` nor the `comment` policy; byte: not the range; line and text: not whether lengths count bytes or characters, and text calls itself `a line` |
| C84 | `line(char_length(max = 18446744073709551615))` (and text) is accepted by the macro, which generates `18446744073709551615usize + 1`: rustc refuses it. The same maximum in `byte_length` is fine |
| C84 | bounds of isize/usize are read with the width of the machine that runs the macro: a bound that does not fit a 32-bit target is accepted when cross-compiling (rustc refuses the literal) |
| C86 | the code generated for `json` writes `String` (`json/mod.rs:219, 223`) where every other handler writes `validators_prelude::String`: with features that do not need `std` the derived code does not compile in a `#![no_std]` crate |
| C86 | feature `derive` without any validator does not build: `validators-derive` ends in a `compile_error!` |
| C87 | `length` is documented to implement `CollectionLength`; the generated code does not |
| C87 | `line` and `text` are documented to implement `ValidateLength`; they implement `ValidateString` |
| C87 | `json` also implements `ToJsonString`, which its documentation does not list |
| C88 | an integer outside the field type is "integer is too large" when given as an integer and "number too large to fit in target type" when given as text; a negative number given as text to an unsigned validator is "invalid digit found in string" |
| C89 | `text(char_length(..), byte_length(..))` is refused with "you are trying to reset the `byte_length` parameter" although that parameter is given once |

## 7. Mutation testing

`seeded/LOG.jsonl` records, for each wrong program tried in a scratch copy, the definition edited,
the edit, the claim it breaks, the theorems that failed, and the theorems tightened as a result.

## 8. The repository's own tests on the model

`ConformNet.v` and `ConformValue.v` run the tests of `/repo/validators/tests` on the model: every
`test(text, expected)` of a file on every configuration the file lists (about 6000 verdicts for domain, host,
email and ip alone).  The table of `ConformNet.v` is generated from the Rust text; the expected verdict stays
a function of the configuration, as in the test.  The model agrees everywhere.  These are tests, not proofs: they guard
against a misreading of the code, and no claim of the manifest rests on them.  Left out are the tests whose
answer belongs to an external crate (regex, semver, url, phonenumber, serde_json).

`ConformDoc.v` does the same for the examples of the crate documentation (`/repo/validators/src/lib.rs:42-790`): each
declared struct goes through the model of the derive macro, and each assertion is evaluated on the configuration that
the macro returns.  The model agrees with all of them.  For bit, byte, phone and the http validators the external parser is
a table of the texts of the example; of json, regex, semver, semver_req and url only the declaration is run.
