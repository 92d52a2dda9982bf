# Design of the formal model of `ipaddress` (C++, /repo)

## 1. What is verified, and how

The repository is a header-only C++ library. Nothing is compiled or run here:
the headers are read as text and modelled, function by function, as small total
Gallina functions (Coq 8.16.1; standard library everywhere, plus Flocq for the
floating-point conversions of C48 only). Every model definition
carries a comment with the file and the lines it models, and says where it is
simplified. The property theorems are about that model, for all inputs.

### Conventions of the model

* Machine integers and characters are `Z`; every wrap-around is written as an
  explicit `mod 2^n`. `char` is signed (x86 ABI), characters are arbitrary `Z`
  in the theorems unless a range is stated; NUL is 0. `size_t` is 64 bits,
  except in C87 (32 to 64 bits) and for the hash (C72, both sizes).
* A call returns `Ret a`, `Err code value` (an `error_code` was set) or
  `UB kind`. Undefined behaviour is a distinct outcome, never assumed away:
  array accesses check their bounds, shifts check their count, native division
  checks for zero, signed arithmetic checks its range, `assert` checks its
  condition.
* A character sequence reaches the parsers as a list of tokens, one per call of
  `next_char_or_error`: `Ch c` or `Bad code value`. Four reader functions
  (char, UTF-8, UTF-16, UTF-32) produce the tokens from code units.
* The C++ templates over IPv4/IPv6 become functions over `ver := V4 | V6`, so
  one theorem covers both. IPv4 integer operations are native 32-bit ones; IPv6
  ones go through the model of class `uint128_t` (two 64-bit halves).
* An address is a byte list plus a scope id (empty for IPv4); a network is an
  address, a netmask and a prefix length, as in the class.
* `IPADDRESS_IPV6_SCOPE_MAX_LENGTH` has its default value 16, and
  `IPADDRESS_SCOPE_ID_SUPPORT_SPACES` is not defined, except in C68, C81,
  C85, C86, C88, C89 and C90 (ConfigModel, NetConfigModel, NetOpsConfigModel, MacroModel,
  AnyConfigModel, BuildModel), which cover every setting of these macros.

### Shape of the development

`*Model` files: only definitions. `Spec*` files: independent specifications
(grammars, bit-level and interval-level meanings, address sets). `*Proofs`
files: lemmas. `Props*` files: the property theorems, each closed by
`exact lemma`, followed by `Print Assumptions` and an `Example` showing that
the hypotheses are met by a concrete non-trivial case.

A property that is false of the code as it stands is answered by a theorem
named `..._refuted` with a witness, next to a `..._partial` theorem proving the
property under the exact guard under which it does hold.

## 2. Trusted base

* Coq's kernel (`coqc` 8.16.1, including `vm_compute`).
* The axioms printed by `Print Assumptions` for each theorem (see section 5).
* The reading of the code: the model is tied to /repo by the cited lines, and by
  the project's own tests (see "Fidelity").
* Modelled: see section 4. Not modelled: see section 6.

## 3. Plan per property

| id | model | proof method |
|----|-------|--------------|
| C01 | IPv4 parser loop over tokens | loop invariant "consumed prefix = rendered octets + digits"; grammar spec as an inductive relation |
| C02 | `ip_to_chars`, `byte_to_string` with checked buffers | buffer contents = decimal numeral; with C01 |
| C03 | same, UB outcomes | invariant on index, digits and octet; codes (SpecCodes) by a predicate carried through every function, each code with a text |
| C04 | same, error code + index | left-to-right specification of the first violation |
| C05 | `ip_to_uint32`, `ip_from_uint32`, v6 `to_uint`/`from_uint`, `swap_bytes`, host endianness a parameter | positional notation lemmas; expected to fail on big endian (`_refuted` + little endian theorem) |
| C06 | `ip_reverse_pointer` v4/v6 | list equalities, injectivity |
| C07 | `split_scope_id`, `split_parts`, `get_parts_bound`, `parse_parts` | loop invariants; grammar of RFC 4291 as separate relation; known deviations expected |
| C08 | same | value of the groups |
| C09 | same, UB outcomes | buffers indexes bounded; codes as for C03 |
| C10 | `ip_to_chars` v6 + parser | output satisfies the grammar with the address as value, then C07/C08 |
| C11 | `ip_to_chars` v6 | specification of leftmost longest zero run; sweep over zero patterns |
| C12 | same, UB outcomes | length bounds |
| C13 | all parsers | expected false: witnesses; then the exact language of the IPv6 parser for all texts (SpecLoose) |
| C14 | `ipv6_set_scope`, `scope` class | list lemmas |
| C15 | `compare`, `less`, `equals` | lexicographic order lemmas; pre-C++20 `less` expected false with scopes |
| C16 | `hash_combine`, `calc_hash` | function of the compared data |
| C17 | `ipv4_mapped`, `sixtofour`, `teredo` | bits; mapped expected false |
| C18-C25 | `from_address`, `strict_netmask`, `ip_from_prefix`, `broadcast_address`, `contains`, `supernet`, ... | characterise masks as arithmetic (`a - a mod 2^k`), then interval reasoning |
| C26-C29 | `parse_netmask`, `parse_address_with_prefix` | loop invariants; several expected refutations; the exact languages of the mask and network parsers for all texts (SpecLoose) |
| C30 | network comparisons | lexicographic order |
| C31-C34 | `ip_address_iterator`, `ip_reverse_iterator`, `hosts_sequence` | arithmetic modulo 2^width with carry |
| C35-C37 | `ip_network_iterator`, `subnets` | same |
| C38 | `ip_exclude_network_iterator`, `address_exclude` | induction on the prefix length gap |
| C39-C41 | tables of `ip-networks.hpp` | interval reasoning |
| C42-C47 | class `uint128_t` | arithmetic modulo 2^128; Knuth division by invariant |
| C48 | construction from and conversion to double, float and long double (FloatModel), on Flocq's binary64/binary32, any binary format for long double, and bit patterns | exact truncation for construction; each step of `operator double` shown exact or rounded once, the refuted band 2^88..2^101 by a witness |
| C49, C50 | `ip_any_*` | case analysis over the version |
| C51, C52 | readers of `unicode.hpp` | token lemmas; UTF-8 strictness expected false |
| C53 | `fixed_string` | list lemmas |
| C54 | both overload families; the error code and its detail as state variables with any incoming value (CodeModel) | the state-passing parsers proved equal to the `res` ones, then case analysis |
| C55-C57 | `from_bytes`, literals, `swap` | list lemmas |
| C58 | `string_converter`, `to_wstring` and siblings | token lemmas per character type |
| C59, C60 | stream operators and manipulators; std streams as the standard says | case analysis on the stream state, induction over the words |
| C61 | raise_error, print, print_symbol_code (ErrorModel); std::ostringstream as the standard says | the 104-unit buffer as a checked array; induction over the symbols of the text; a function recovering the code from the message |
| C62 | mixed operators, compound assignments, ++/--, swap, abs (Uint128OpsModel); variables as a store of numbers, two names may be equal | case analysis on the operator, reduction to the two-operand theorems of C42-C45 |
| C63 | numeric_limits members (Uint128OpsModel) | evaluation plus the range of to_Z |
| C64 | byte_array<N> for every N, as checked arrays in named variables (ContainerModel) | induction over the loops; big-endian value of a byte list |
| C65 | optional<T> as its two members, statements on named variables (ContainerModel) | simulation by variables holding options, induction on the statement list |
| C66 | the template ip_reverse_iterator once, over a record of the operations it uses, instantiated for address, network and version-erased iterators (ReverseModel) | one generic proof over an abstract line with moves; the order by the position before each base |
| C67 | array overloads, literal operators (with their buffer sizes), compile-time templates with their char copy, integer literal, in five character types (LiteralModel, over the readers, FixedStringModel and the parsers with code of CodeModel) | fixed_string construction characterised for every reader; then all forms reduce to one parser call on the same characters; witnesses for the differences |
| C68 | parser, formatter and setter of IPv6 addresses parameterised by the scope-id macros (ConfigModel; the other functions are shared with V6Model) | the buffer argument of the default setting redone for an array of any size; exact language by the characterisation of the address part; equality with the default functions at length 16 |
| C69 | class `scope`, `get_scope_id`, `set_scope_id` of strings and arrays in five character types, of addresses and version-erased addresses (ScopeModel, on top of V6Model and CodeModel) | the tokens of each reader characterised by a relation between units and characters (SpecScope); then the exact language of the setter for `char` |
| C70 | the six operators of ten classes as one table of the three each class writes (`==`, `<=>`, `<`) and the rewriting rules (RelModel); swap and conversions of networks | one generic lemma per family from a strict order, instantiated per class |
| C71 | every throwing function as compiled with IPADDRESS_NO_EXCEPTIONS, nested calls included (NoThrowModel) | `silent`: a relation between the throwing function and the silent one, proved per function by simulation |
| C72 | the mixing functions and every `hash` (Uint128Model, AddressModel, NetworkModel, AnyModel, FixedStringModel) | each step is a permutation of the words (xor-shift, product with an odd number); collisions by witness |
| C73 | the parsers with the reader of `char` as a parameter (Utf8Model) | a reader that agrees with the usual one on ASCII gives the same parsers, because every buffer they fill is ASCII (InnerProofs); then UTF-8 of bytes is the char8_t reader |
| C74 | the functions that go through the integer of an address, with the byte order of the host as a parameter (HostModel) | simulation: a big-endian host computes on `x` the mirror of what a little-endian one computes on the mirror of `x`; for IPv6 texts the two splittings differ in the two groups of the dotted quad only; loops by a relation between iterators that the step preserves (EndianProofs6, EndianProofs7); exclusion by the states of the iterator of C38, where the order of the octets cannot mislead the test for containment if only the last octet varies (EndianProofs10); IPv6 masks of whole halves are their own mirror images (EndianProofs11, EndianProofs12); the loop over one IPv6 host by what adding one does to each half (EndianProofs13), and that over the subnets of one address by its relation to it (EndianProofs14) |
| C75 | nothing new: laws between the operations of the network, iterator, classification and parsing models | stated with the operations alone; from the exact results of each (C27-C41) through the intervals of values they describe (LawLemmas); the mapped text through the grammars of C06 and C09 (LawText) |
| C76 | default constructors of addresses, networks, iterators and sequences (AddressModel, NetworkModel, IterModel, AnyModel) | against the parsers, the order and the class tests; computation for the closed terms, `C19`-style arithmetic for the steps (DefaultLemmas) |
| C77 | the IPv6 parser (V6Model) and the network parser (NetworkModel), error codes and numbers | an inductive list of defects of fields and parts (SpecV6Err); one simulation per phase of the parser (V6Err, V6Err2), an equivalence for the whole (V6Err3); networks by cases on the mask (ErrNumber) |
| C78 | the noexcept functions of CodeModel, IterModel and AnyModel; an exception is `Err` or, for the exclusion, `UB AssertFailed` | iterators a program can reach as inductive sets (SpecNoexcept), shown to satisfy the invariants of C34 and C38 (NoexceptLemmas); the overflow of subnets by arithmetic on block sizes |
| C79 | the readers of UnicodeModel and all parsers of strings | encodings as in SpecError; one step (DecodeLemmas), then induction over the text; the parsers only see the tokens |
| C80 | the readers of UnicodeModel with an end pointer anywhere in the array | the lead unit decides the length (SpecDecode); case analysis over the lead byte; reads are compared on texts that agree before the end |
| C81 | NetConfigModel: IPv6 addresses and networks with the scope-id macros as parameters | parsing cut at the slash as for C28, then C68 on the address text; comparisons through fixed_string of any size; netmasks through the network without scope id |
| C82 | existing formatters and parsers | full text: groups of four digits of equal length, hence lexicographic order is numeric order; lengths: every accepted text has at least the digits of its groups, "::" for n groups saves 2n-1 characters inside and 2n-2 at an end |
| C83 | existing reverse pointers and contains | pointers as lists of labels, split uniquely at dots; leading digits of an address in base 256 or 16 |
| C84 | existing network parsers | every symbol sequence has one of seven shapes (SpecNetErr); the parser computed on each; masks and addresses through C04, C26 and C77 |
| C85 | NetOpsConfigModel: the network operations with the comparisons and the setter of the setting | every address made by the arithmetic has no scope id, where the comparisons of all settings agree; loops by induction on this invariant |
| C86 | MacroModel: the parsers, literals and set_scope_id of a build, a record of the scope-id setting and the two other macros | simulation by the scope-id model (C68, C81): in every build the buffers hold only characters on which the readers agree; then one macro at a time |
| C87 | SizeModel: the functions whose size_t arithmetic can exceed 32 bits, with the number of bits as a parameter | the digits of a number computed modulo 2^w (Horner), everything else equal to the 64-bit model because the values stay below 2^32; then C28, C50 and C78 of the 64-bit model |
| C88 | AnyConfigModel: the functions of AnyModel that reach one depending on the scope-id macros, with the setting as a parameter | comparisons, text and inclusion case by case from C49 (IPv4) and C81, C85 (IPv6); sequences by the invariant that their addresses have no scope id, on which comparisons do not depend on the setting |
| C89 | AnyConfigModel: operator<<, operator>> and the text functions with the build as a parameter | texts by the shape of C88 (address part in either case, then the scope id), extraction by the word taken (C59) and the error-code parsers of C86; refuted for scope ids that contain a space |
| C90 | BuildModel: the tables, the predicates, get_scope_id, raise_error and the throwing functions with the build as a parameter; the table entries with the endianness as a parameter | a network text without a scope id is read alike by every build, so the tables and the predicates are those of the default one; messages reduce to those of the default build for the char8_t reading of the text; refuted on a big-endian host by computing the entries |
| C91 | QuietOpsModel: the functions of NoThrowModel with the comparisons and the setter of the setting (NetOpsConfigModel, AnyConfigModel) | addresses made by the arithmetic and by remove_scope_id have no scope id, so every comparison is that of the default setting; the operations are then those of C71 for the networks without scope ids, and those of C85 and C88 agree in the same way |
| C92 | UnionModel: the version-erased classes as a tag and a union that remembers its active member; access to the other member and value() of an empty optional are outcomes of their own | each function by cases on tag and member equals the one of AnyModel; compositions (halves, exclusion) by a rule for sequencing; reachable objects by mutual induction on how they were made |
| C93 | AnyHostModel: ip_address, ip_network and ip_any_iterator over HostModel, with the byte order of the host as a parameter | by the version tag from the versioned results (C74); iterators by a relation that every operation preserves, once for all version-erased iterators (ops_rel, arel_seq), so that loops in both directions, size and elements follow together; exclusion through the versioned one (AnyEndianProofs3) |

## 4. What is modelled

| header | model file | what |
|--------|-----------|------|
| `uint128.hpp` | Uint128Model, Uint128OpsModel, FloatModel | the two-halves class: constructors, all arithmetic, bit, shift, comparison and mixed operators, compound assignment, `++`/`--`, division, text in every radix, double and float conversion, numeric_limits, hash, streams (StreamModel) |
| `base-v4.hpp`, `base-v6.hpp`, `endian.hpp` | V4Model, V6Model | parsers, formatters, prefix masks, integer conversion on either endianness, reverse pointers, scope handling |
| `unicode.hpp` | UnicodeModel, StreamModel, ErrorModel | the four readers, `string_converter`, `print_symbol_code` |
| `fixed-string.hpp`, `byte-array.hpp`, `optional.hpp` | FixedStringModel, ContainerModel | the containers, member by member |
| `ip-address-base.hpp`, `ipv4-address.hpp`, `ipv6-address.hpp`, `hash.hpp` | AddressModel, CodeModel, LiteralModel, StreamModel | construction, parsing in five character types (strings, arrays, literals, compile time), comparison (both operator families), hash, embedded IPv4, scope ids, swap, output |
| `ip-network-base.hpp`, `ipv4-network.hpp`, `ipv6-network.hpp` | NetworkModel, CodeModel, LiteralModel, StreamModel | the same for networks; masks, broadcast, containment, supernet, subnets, exclusion |
| `ip-address-iterator.hpp`, `ip-network-iterator.hpp` | IterModel, ReverseModel | iterators, reverse iterators, sequences of hosts and subnets, the exclusion generator |
| `ip-networks.hpp` | ClassifyModel | tables and predicates for addresses and networks |
| `ip-any-address.hpp`, `ip-any-network.hpp`, `ip-any-iterator.hpp` | AnyModel, AnyHostModel, UnionModel, CodeModel, ReverseModel, LiteralModel, StreamModel | the version-erased classes |
| `errors.hpp` | ErrorModel, BuildModel | exception classes, messages, `raise_error` |

Simplifications, each also stated at its definition:

* A function template over character type, version or iterator is one Gallina
  function with a parameter; `constexpr` evaluation is the same function.
* `operator<=>` returns the three-way result `Lt`/`Eq`/`Gt` of Coq.
* Exceptions are the `Err` outcome (plus, in ErrorModel, the message text).
* A moved-from object is a copy: no class of the library has a move of its own.
* Pointers and iterators into texts are positions; where a reader can move
  past the end this is an explicit outcome.
* Standard library parts used by the library (`std::array`, `std::string`,
  streams, `std::tuple`) behave as the C++ standard says.

### Fidelity

The `Vectors*` files evaluate the model on the expectations of the project's own
test suite. Every `INSTANTIATE_TEST_SUITE_P` table of /repo/tests is transcribed
mechanically and its test body is a checker in `VectorBase`; the plain tests on
comparison, hashes (64 and 32 bits), error messages, foreign alphabets,
`uint128_t` and the version-erased classes are in `VectorsMisc`. All rows agree:
values, error codes, exception classes, messages, hashes, streams and the
sequences of hosts, subnets and exclusions. These are tests, not proofs; no
theorem uses them. They show that the model was not fitted to the properties.
`VectorsFixed` is `fixed-string-tests.cpp`. Not transcribed: the compile-time tests
and tests of copying and of standard containers.

## 5. Axioms

`Print Assumptions` stands under every theorem of the `Props*` files and is
printed during the build. The result is

* for the theorems of `PropsFloat.v` (all of C48, no others):
  `ClassicalDedekindReals.sig_not_dec`, `ClassicalDedekindReals.sig_forall_dec`,
  `FunctionalExtensionality.functional_extensionality_dep`,
  `Classical_Prop.classic`. All four come from Coq's standard library (its
  construction of the real numbers), on which Flocq is built; Flocq itself adds
  none;
* for every other theorem: `Closed under the global context`.

There is no `Axiom`, `Parameter`, `Admitted`, functor or module type in the
development. `Section` variables are discharged when the section closes.

## 6. What is not modelled

* `long double` in formats that are not IEEE binary formats (pairs of doubles),
  and hardware rounding modes other than round-to-nearest-even.
* Combinations of the macros: `IPADDRESS_CHAR_IS_UTF8` (C73), the builds without
  exceptions (C71) and the scope-id macros (C68, C81, C85, C88) are modelled together for
  parsing, literals, set_scope_id (C86), streams (C89), classes, get_scope_id and
  exceptions (C90), the last two of them for network operations (C91), and one at a
  time for everything else, where at most one of them matters. The other theorems use
  the default setting.
* Big-endian hosts beyond the functions of C74 and C93 and the tables of C90. All other theorems are for
  little-endian hosts.
* Overloads that only forward (`std::to_string`, `std::swap`, `std::hash`
  specialisations, `to_string(obj)`, implicit conversions to `std::string`).
* `noexcept` beyond C78, SFINAE constraints, template argument deduction: anything that
  decides whether a program compiles rather than what it does.
* Memory allocation failure, threads, locales other than the classic one.

## 7. Behaviour that differs from the documentation

Each item is a theorem ending in `_refuted` (or an exact characterisation) with
the witness in the theorem.

* C05, C74: on big-endian hosts the integer of an address is the one of its
  reversed bytes, the mask of `/8` is `0.0.0.255`, `::1.2.3.4` is `::4.3.2.1`, counts
  of IPv6 networks are wrong, and `subnet_of` and `address_exclude` of IPv4
  networks are misled by mirrored integers. (Also, `endian.hpp` line 75 lacks `|| \`, so
  its list of big-endian architectures does not compile; modelled is a host whose
  byte order is known.)
* C07: `::` with five groups and a dotted quad is refused.
* C13, C14: characters after NUL are ignored in IPv6 pieces and scope ids;
  `get_uint32` of a scope id wraps modulo 2^32 (also C69).
* C15, C23, C30, C49, C70: before C++20 the comparison operators are no order when
  scope ids differ; `subnet_of` inherits this.
* C17, C40, C41: `ipv4_mapped` looks at two bytes only.
* C20: a prefix length above the maximum is undefined behaviour.
* C21: `addresses_count` of `/0` is 0.
* C25, C35, C37: splitting or widening by the full width is an undefined shift;
  a large difference overflows.
* C26, C28, C29: mask numbers are read modulo 2^64, mask `0.0.0.0` is an
  undefined shift, over-long network texts are truncated.
* C32, C33, C36: loops over sequences that touch the last address do not stop
  at the end.
* C34, C66: iterator arithmetic and the order of reverse iterators fail at the
  ends of the space.
* C38, C50: excluding `0.0.0.1` or `::1` loses the last piece.
* C44: a shift by exactly 128 is undefined.
* C46, C60: number texts wrap, may be empty, and a failed extraction at the end
  of the input stores 0.
* C48: `operator double` is wrong by up to 2^-39 between 2^88 and 2^101;
  `operator float` rounds twice and gives +infinity for the largest values; an x87
  `long double` of value 2^64 - 1 becomes 2^64, and the other way round.
* C52: overlong UTF-8 is accepted.
* C53: `fixed_string::back` reads the last array element; `fixed_string<0>` hashes
  unlike the empty strings it is equal to.
* C54: `subnets` and `address_exclude` do not reset the error code.
* C58: scope ids outside ASCII are sign-extended in wide texts.
* C61: the message of a cut text can lose its dots.
* C67: literals refuse long but valid texts; unterminated UTF-8 arrays overrun.
* C71: without exceptions a version-erased parse fails to `::` where the overload
  with a code gives `0.0.0.0`; an over-long literal is cut off and read
  (`"192.168.100.1005"_ipv4` is 192.168.100.100); an exclusion iterator made for a
  network that is not inside never moves.
* C72: hashes do not "uniquely identify" an address (two IPv6 addresses with one
  64-bit hash); the hash of a fixed_string is not FNV-1a outside ASCII.
* C77: messages name the wrong place: an invalid symbol of `g::1` is said to be in
  part 3, a bad last octet of `::1.2.3.256` in octet 2; for networks the number is 0, or
  3 with a dotted mask, wherever the bad octet is.
* C78: `subnets` of an IPv6 network ends the program, also the overload with an error
  code, when prefix length plus difference overflows `size_t` (for instance
  `subnets(code, size_t(-1))`): the exception of the network iterator's constructor meets
  `noexcept`. The models return `Err` there; with `noexcept` it is `std::terminate`.
* C80: a truncated UTF-8 or UTF-16 sequence at the end of the text moves the pointer up to
  three units (one for UTF-16) beyond one past the end before the error is reported.
  Nothing is read there. The model's indices are integers, so this shows as an index and
  not as `UB`.
* C81: with IPADDRESS_IPV6_SCOPE_MAX_LENGTH below 4 (0 and IPADDRESS_NO_IPV6_SCOPE
  included) the buffer for the address text in network texts has 41 + length characters, but
  address texts without scope id have up to 45. The rest of the text, with the prefix
  length, is then dropped without error: without scope ids
  `0000:0000:0000:0000:0000:ffff:1.25.255.255/96` gives `::ffff:1.25.255.25/128`.
* C90: on a big-endian host the entries of the IPv4 class tables are refused
  (has_host_bits_set), except four, so that the constant tables do not compile.
* C87: a prefix number is computed modulo 2^w with w the bits of size_t: a 32-bit host
  takes `10.0.0.0/4294967304` for 10.0.0.0/8.
* C84: `ip_network::parse` and `ip_address::parse` report the error of the IPv6 reading also for
  IPv4 texts: `10.0.0.1/8` has "least 3 parts" instead of host bits.
