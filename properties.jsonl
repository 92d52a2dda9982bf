{"id": "C01", "title": "IPv4 parser accepts exactly the canonical dotted quads", "statement": "ipv4_address::parse succeeds on a character string s if and only if s is four decimal numbers in 0..255, each written without a superfluous leading zero, joined by single dots, with nothing before, between or after; and then the address returned has exactly those four octets in that order.", "quantifier": "every finite sequence of char values, of any length and content (including NUL and non-ASCII bytes)", "why_tests_cant": "the input space is infinite; a suite can only try chosen malformed strings, it cannot show that no other string is accepted or that no well-formed one is refused", "anchors": ["include/ipaddress/base-v4.hpp: base_v4::ip_from_string", "include/ipaddress/ip-address-base.hpp: ip_address_base::parse"]}
{"id": "C02", "title": "IPv4 text round trip", "statement": "For every IPv4 address, to_string (in any format) is the canonical dotted quad of its octets, at most 15 characters, and parsing it gives the same address back; conversely whenever parse accepts s, to_string of the result is exactly s.", "quantifier": "all 2^32 addresses and every accepted string", "why_tests_cant": "2^32 addresses times formats cannot be enumerated in a suite and the converse direction ranges over all strings", "anchors": ["include/ipaddress/base-v4.hpp: ip_to_chars, byte_to_string, ip_from_string"]}
{"id": "C03", "title": "IPv4 parser never performs an out-of-bounds or otherwise undefined access", "statement": "For every input string the IPv4 parser finishes with either an address or one of the documented error codes; it never writes outside its four-octet buffer and never overflows its accumulators.", "quantifier": "every finite character sequence", "why_tests_cant": "absence of undefined behaviour must hold on every path of every input; sanitizer runs only see the executed inputs", "anchors": ["include/ipaddress/base-v4.hpp: ip_from_string"]}
{"id": "C04", "title": "IPv4 parse errors name the first offending position", "statement": "When ipv4_address::parse reports an error, the reported code and octet index are those of the first violation met reading left to right: empty input, wrong number of octets, empty octet, leading zero, more than three digits, value above 255, or an invalid symbol; no string yields an undocumented code.", "quantifier": "every rejected character sequence", "why_tests_cant": "tests pin a code for chosen malformed strings, not that the classification is right for every malformed string", "anchors": ["include/ipaddress/base-v4.hpp: ip_from_string", "include/ipaddress/errors.hpp: error_code"]}
{"id": "C05", "title": "Integer form of an address is its network-order value, on every host", "statement": "ipv4_address::to_uint and ipv6_address::to_uint return the big-endian number denoted by the address bytes, from_uint is its inverse on the whole integer range, and the result does not depend on the endianness of the host.", "quantifier": "all IPv4 and IPv6 addresses, all 32/128-bit integers, both host byte orders", "why_tests_cant": "CI runs on little-endian hosts only and 2^128 values cannot be enumerated", "anchors": ["include/ipaddress/base-v4.hpp: ip_to_uint32, ip_from_uint32", "include/ipaddress/ipv6-address.hpp: from_uint, to_uint", "include/ipaddress/endian.hpp: swap_bytes, is_little_endian"]}
{"id": "C06", "title": "Reverse-DNS pointer", "statement": "reverse_pointer of an IPv4 address is its four octets in reverse order in decimal followed by .in-addr.arpa; of an IPv6 address it is its 32 hexadecimal nibbles, least significant first, separated by dots, followed by .ip6.arpa; in particular distinct (scope-less) addresses have distinct pointers.", "quantifier": "all IPv4 and all IPv6 addresses", "why_tests_cant": "address space too large to enumerate", "anchors": ["include/ipaddress/base-v4.hpp: ip_reverse_pointer", "include/ipaddress/base-v6.hpp: ip_reverse_pointer"]}
{"id": "C07", "title": "IPv6 parser accepts exactly the RFC 4291 texts (with optional %scope)", "statement": "ipv6_address::parse succeeds on a string if and only if it is an RFC 4291 section 2.2 textual address (eight groups of 1-4 hex digits; at most one '::' standing for one or more zero groups; the last two groups optionally written as a dotted-quad IPv4 address), optionally followed by '%' and a scope id of 1..16 allowed characters.", "quantifier": "every finite character sequence", "why_tests_cant": "infinite input space with many interacting boundary cases (number of groups, position of '::', embedded IPv4, scope)", "anchors": ["include/ipaddress/base-v6.hpp: ip_from_string, split_scope_id, split_parts, get_parts_bound, parse_parts, parse_part"]}
{"id": "C08", "title": "IPv6 parser assigns the value the text denotes", "statement": "Whenever ipv6_address::parse accepts a NUL-free string, the 16 bytes of the result are the eight 16-bit groups the text denotes, with the '::' expanded to the right number of zero groups and an embedded IPv4 tail occupying the last 32 bits, and the scope id is the text after '%'.", "quantifier": "every accepted NUL-free character sequence", "why_tests_cant": "the value must be right for every placement of '::' and every digit string", "anchors": ["include/ipaddress/base-v6.hpp: split_parts, get_parts_bound, parse_parts, parse_part, to_hex"]}
{"id": "C09", "title": "IPv6 parser never performs an out-of-bounds access", "statement": "For every input string the IPv6 parser finishes with an address or a documented error code, never indexing outside its group, last-part, scope-id or result buffers and never tripping an internal assertion.", "quantifier": "every finite character sequence, any encoding", "why_tests_cant": "fixed-size stack buffers indexed by input-driven counters: one bad input anywhere in an infinite set is memory corruption", "anchors": ["include/ipaddress/base-v6.hpp: split_scope_id, split_parts, get_parts_bound, parse_parts, pow16"]}
{"id": "C10", "title": "IPv6 text round trip in every format", "statement": "For every IPv6 address with any storable scope id free of '%', and every format (full, compact, compressed), parse(to_string(format)) returns an equal address; hence to_string is injective in each format.", "quantifier": "all 2^128 addresses, all scope ids, three formats", "why_tests_cant": "2^128 addresses; the compression algorithm has many shapes of zero runs", "anchors": ["include/ipaddress/base-v6.hpp: ip_to_chars, to_hex, ip_from_string"]}
{"id": "C11", "title": "Compressed IPv6 text is the RFC 5952 canonical form", "statement": "to_string(compressed) writes groups in lower case without leading zeros and replaces by '::' exactly the leftmost longest run of at least two zero groups (nothing if there is none); compact writes all eight groups without leading zeros; full writes eight groups of four digits.", "quantifier": "all 2^128 addresses", "why_tests_cant": "the choice of the run must be right for all 2^8 zero patterns and all group values", "anchors": ["include/ipaddress/base-v6.hpp: ip_to_chars"]}
{"id": "C12", "title": "Formatting stays inside its fixed buffers", "statement": "to_string of any IPv4 or IPv6 address, in any format and with any scope id of up to 16 characters, never writes beyond the fixed character buffer it uses (16 bytes for IPv4, 58 for IPv6) nor outside its hextet table.", "quantifier": "all addresses, formats and scope ids", "why_tests_cant": "a buffer bound must hold for every value; tests exercise a few dozen", "anchors": ["include/ipaddress/base-v6.hpp: ip_to_chars, to_hex", "include/ipaddress/base-v4.hpp: ip_to_chars, byte_to_string"]}
{"id": "C13", "title": "A string means one thing: embedded NUL is not a terminator", "statement": "When a length-delimited string (std::string, string_view) containing a NUL character is parsed as an address or a network, the parse does not silently ignore the text after the NUL.", "quantifier": "every finite character sequence containing NUL", "why_tests_cant": "requires considering every position of a NUL in every text", "anchors": ["include/ipaddress/base-v4.hpp: ip_from_string", "include/ipaddress/base-v6.hpp: split_parts, split_scope_id", "include/ipaddress/fixed-string.hpp: fixed_string::fixed_string", "include/ipaddress/ip-network-base.hpp: parse_address_with_prefix"]}
{"id": "C14", "title": "Scope id setter and getter", "statement": "set_scope_id either stores exactly the given NUL-free scope id (at most 16 characters, none of the forbidden symbols) or reports an error and leaves the previous scope id and the address bytes unchanged; get_scope_id returns it, has_uint32 holds iff it consists of decimal digits, and get_uint32 is then its value.", "quantifier": "all addresses and all candidate scope strings", "why_tests_cant": "arbitrary strings and the numeric value must be right for every digit string, including those beyond 32 bits", "anchors": ["include/ipaddress/ipv6-address.hpp: ipv6_set_scope::change, scope::parse_value, get_scope_id"]}
{"id": "C15", "title": "Address comparison is a total order agreeing with equality and with numeric value", "statement": "On addresses of one version the comparison operators form a strict total order compatible with ==; without scope ids it is the order of the integer values, and with equal bytes it is the order of the scope ids. This holds both for the C++20 <=> and for the pre-C++20 < family.", "quantifier": "all pairs and triples of addresses, with arbitrary scope ids, both operator families", "why_tests_cant": "order laws quantify over triples; std::map/std::sort have undefined behaviour if one triple violates them", "anchors": ["include/ipaddress/ipv6-address.hpp: less, compare, equals", "include/ipaddress/ipv4-address.hpp: less, compare, equals", "include/ipaddress/byte-array.hpp: operator<, operator<=>", "include/ipaddress/fixed-string.hpp: compare"]}
{"id": "C16", "title": "Hash agrees with equality", "statement": "Equal addresses, networks, and version-erased addresses/networks have equal hashes, on 32- and 64-bit size_t.", "quantifier": "all pairs of equal values", "why_tests_cant": "the contract of unordered containers ranges over all pairs", "anchors": ["include/ipaddress/hash.hpp: calc_hash, hash_combine", "include/ipaddress/fixed-string.hpp: hash", "include/ipaddress/ipv4-address.hpp: hash", "include/ipaddress/ipv6-address.hpp: hash", "include/ipaddress/ip-network-base.hpp: hash"]}
{"id": "C17", "title": "Embedded-IPv4 extraction recognises exactly its prefix", "statement": "ipv4_mapped returns a value exactly for addresses in ::ffff:0:0/96, sixtofour exactly for 2002::/16 and teredo exactly for 2001::/32, and the IPv4 addresses returned are the bits those formats define (the last 32 bits; bits 16..47; bits 32..63 and the complemented last 32 bits).", "quantifier": "all 2^128 addresses", "why_tests_cant": "a recogniser's exactness quantifies over all non-members as well", "anchors": ["include/ipaddress/ipv6-address.hpp: ipv4_mapped, sixtofour, teredo"]}
{"id": "C18", "title": "A constructed network has no host bits and a contiguous mask", "statement": "Every network produced by parse, from_address, supernet, subnets or address_exclude with prefix length p (0..32 / 0..128) has a netmask of p one-bits followed by zeros, a network address whose host bits are zero, and that prefixlen.", "quantifier": "all addresses, prefix lengths and operations", "why_tests_cant": "invariant over every construction path and every bit pattern", "anchors": ["include/ipaddress/ip-network-base.hpp: from_address, parse_address_with_prefix, supernet", "include/ipaddress/base-v4.hpp: ip_from_prefix, strict_netmask", "include/ipaddress/base-v6.hpp: ip_from_prefix, strict_netmask"]}
{"id": "C19", "title": "Strict construction rejects exactly addresses with host bits, non-strict clears exactly those bits", "statement": "from_address(a, p) with strict succeeds iff all host bits of a are zero (otherwise has_host_bits_set), with the network address equal to a including its scope id; with strict=false it always succeeds and the network address is a with the last (width-p) bits cleared.", "quantifier": "all addresses, all prefix lengths 0..max, both modes", "why_tests_cant": "bit-level statement over the whole space", "anchors": ["include/ipaddress/ip-network-base.hpp: from_address", "include/ipaddress/base-v4.hpp: strict_netmask", "include/ipaddress/base-v6.hpp: strict_netmask"]}
{"id": "C20", "title": "Prefix lengths beyond the maximum are rejected", "statement": "from_address (and so any network construction) never yields a network and never has undefined behaviour when the given prefix length exceeds 32 (IPv4) or 128 (IPv6): it reports an error.", "quantifier": "every size_t prefix length", "why_tests_cant": "2^64 values; the failing ones corrupt memory silently", "anchors": ["include/ipaddress/ip-network-base.hpp: from_address", "include/ipaddress/base-v4.hpp: ip_from_prefix", "include/ipaddress/base-v6.hpp: ip_from_prefix"]}
{"id": "C21", "title": "Broadcast address, host mask and address count", "statement": "The broadcast address is the largest address of the network (network address with all host bits set), the host mask is the complement of the netmask, and addresses_count is 2^(width-prefixlen).", "quantifier": "all networks of both versions", "why_tests_cant": "whole-space arithmetic including the extreme prefix lengths", "anchors": ["include/ipaddress/ip-network-base.hpp: broadcast_address, hostmask, addresses_count"]}
{"id": "C22", "title": "contains is interval membership", "statement": "network.contains(a) holds iff network_address <= a <= broadcast_address as integers, iff the leading prefixlen bits agree; scope ids play no role.", "quantifier": "all networks and all addresses of the same version", "why_tests_cant": "2^160 / 2^256 pairs", "anchors": ["include/ipaddress/ip-network-base.hpp: contains"]}
{"id": "C23", "title": "subnet_of and supernet_of are interval inclusion", "statement": "For networks without scope ids a.subnet_of(b) holds iff every address of a is in b, iff b's prefix is no longer than a's and b contains a's network address; supernet_of is the converse relation; both are partial orders.", "quantifier": "all pairs and triples of networks", "why_tests_cant": "quantifies over all pairs of networks and their addresses", "anchors": ["include/ipaddress/ip-network-base.hpp: subnet_of, supernet_of, is_subnet_of"]}
{"id": "C24", "title": "overlaps is non-empty intersection, and networks nest or are disjoint", "statement": "a.overlaps(b) holds iff some address lies in both; it is reflexive and symmetric, and two overlapping networks are nested.", "quantifier": "all pairs of networks", "why_tests_cant": "existential over the address space for every pair", "anchors": ["include/ipaddress/ip-network-base.hpp: overlaps"]}
{"id": "C25", "title": "supernet", "statement": "supernet(d) (or supernet to a given new prefix) of a network with prefix p, for 0<=d<=p, is the unique network of prefix p-d containing it; for d>p or a longer new prefix it reports the documented error; prefix 0 returns the network itself. It never has undefined behaviour.", "quantifier": "all networks, all size_t differences and optional new prefixes", "why_tests_cant": "shift amounts at the width boundary are exactly the values tests omit", "anchors": ["include/ipaddress/ip-network-base.hpp: supernet"]}
{"id": "C26", "title": "Netmask and hostmask notations", "statement": "Parsing address/mask where the mask is written as a decimal prefix length, as a dotted netmask or as a dotted hostmask yields the prefix length it denotes, and any other mask text is rejected; behaviour is defined for every mask text.", "quantifier": "all mask texts and all 2^32 dotted masks", "why_tests_cant": "2^32 masks and arbitrary digit strings (wrap-around of the accumulator)", "anchors": ["include/ipaddress/base-v4.hpp: parse_netmask, prefix_from_ip_uint32, count_righthand_zero_bits", "include/ipaddress/base-v6.hpp: parse_netmask"]}
{"id": "C27", "title": "Network text round trip", "statement": "parse(to_string(network, format)) returns an equal network with equal prefix length for every network and format.", "quantifier": "all networks (all prefix lengths) of both versions, all formats, any scope id", "why_tests_cant": "all prefix lengths times all addresses", "anchors": ["include/ipaddress/ip-network-base.hpp: to_string, parse_address_with_prefix"]}
{"id": "C28", "title": "Network parser accepts only complete network texts", "statement": "ipv4_network/ipv6_network::parse succeeds only if the whole string is an address text accepted by the address parser, optionally followed by one '/' and a mask; no trailing characters are ignored.", "quantifier": "every finite character sequence", "why_tests_cant": "buffer-limited copying of the address part makes length boundaries matter; infinite input space", "anchors": ["include/ipaddress/ip-network-base.hpp: parse_address_with_prefix"]}
{"id": "C29", "title": "Network parser is memory safe", "statement": "For every input string the network parser never writes outside its fixed address buffer and returns a network or an error code.", "quantifier": "every finite character sequence, both versions", "why_tests_cant": "as for the address parsers", "anchors": ["include/ipaddress/ip-network-base.hpp: parse_address_with_prefix"]}
{"id": "C30", "title": "Network comparison is a total order compatible with equality and hashing", "statement": "Networks are ordered by network address and then by netmask; the relation is a strict total order, and equality is equality of address (with scope) and prefix length.", "quantifier": "all pairs and triples of networks, both operator families", "why_tests_cant": "order laws quantify over triples", "anchors": ["include/ipaddress/ip-network-base.hpp: operator==, operator<, operator<=>"]}
{"id": "C31", "title": "hosts() lists exactly the usable hosts", "statement": "The elements begin()[0..size()-1] of hosts() are, in increasing order and without repetition: for prefix max the single address; for prefix max-1 both addresses; otherwise every address of the network except the network address and, for IPv4, the broadcast address.", "quantifier": "all networks, all element indices", "why_tests_cant": "sequences of up to 2^128 elements", "anchors": ["include/ipaddress/ip-address-iterator.hpp: hosts_sequence, ip_address_iterator"]}
{"id": "C32", "title": "Iterating hosts() from begin() to end() terminates after size() steps", "statement": "Incrementing begin() exactly size() times reaches an iterator equal to end(), and no earlier increment compares equal to end().", "quantifier": "all networks of both versions", "why_tests_cant": "a range-for over a network touching the top of the address space is never tried (or would not finish)", "anchors": ["include/ipaddress/ip-address-iterator.hpp: hosts_sequence, operator++, operator=="]}
{"id": "C33", "title": "Reverse iteration mirrors forward iteration", "statement": "rbegin()..rend() of hosts() and subnets() visits the same elements as begin()..end() in the opposite order and terminates.", "quantifier": "all networks", "why_tests_cant": "as above", "anchors": ["include/ipaddress/ip-address-iterator.hpp: ip_reverse_iterator, reverse, base", "include/ipaddress/ip-network-iterator.hpp: reverse, base"]}
{"id": "C34", "title": "Iterator arithmetic obeys the random-access laws", "statement": "For address and subnet iterators: (it + n) - n == it, ++/-- equal +=1/-=1, it[n] == *(it+n), it += -n equals it -= n, a + (b - a) == b, and the order of iterators is the order of positions.", "quantifier": "all positions and all offsets", "why_tests_cant": "laws over all pairs of positions, including wrap-around", "anchors": ["include/ipaddress/ip-address-iterator.hpp: add, sub, operator-", "include/ipaddress/ip-network-iterator.hpp: add, sub, operator-, operator[]"]}
{"id": "C35", "title": "subnets() partitions the network", "statement": "For a network of prefix p and 0<=d<=max-p, subnets(d) has 2^d elements; element n is the network of prefix p+d starting at network_address + n*2^(max-p-d); together they are pairwise disjoint, in increasing order, and cover exactly the network.", "quantifier": "all networks, all d, all element indices", "why_tests_cant": "up to 2^128 elements; boundary shifts", "anchors": ["include/ipaddress/ip-network-base.hpp: subnets", "include/ipaddress/ip-network-iterator.hpp: subnets_sequence, ip_network_iterator"]}
{"id": "C36", "title": "Iterating subnets() terminates after size() steps", "statement": "Incrementing begin() exactly size() times reaches end() and no fewer increments do.", "quantifier": "all networks and all valid prefix differences", "why_tests_cant": "networks at the top of the address space wrap around", "anchors": ["include/ipaddress/ip-network-iterator.hpp: subnets_sequence, operator++, operator=="]}
{"id": "C37", "title": "subnets() parameter validation", "statement": "subnets reports new_prefix_must_be_longer, cannot_set_prefixlen_diff_and_new_prefix or invalid_prefixlen_diff exactly for the invalid combinations and never has undefined behaviour, for every size_t difference and optional new prefix.", "quantifier": "all networks and all size_t arguments", "why_tests_cant": "wrap-around of size_t arithmetic and shift widths", "anchors": ["include/ipaddress/ip-network-base.hpp: subnets"]}
{"id": "C38", "title": "address_exclude partitions the difference", "statement": "If other is a subnet of net, address_exclude(other) enumerates pairwise disjoint networks, none overlapping other, whose union with other is net (one network per prefix length between p(net)+1 and p(other)); if they are equal it is empty, and if other is not contained it reports not_contained_network.", "quantifier": "all pairs of networks", "why_tests_cant": "needs an argument for every pair and every address; sequences of up to 128 networks", "anchors": ["include/ipaddress/ip-network-base.hpp: address_exclude", "include/ipaddress/ip-network-iterator.hpp: ip_exclude_network_iterator, exclude_network_sequence"]}
{"id": "C39", "title": "IPv4 classification predicates are the IANA ranges", "statement": "is_private, is_global, is_multicast, is_reserved, is_loopback, is_link_local and is_unspecified of an IPv4 address hold exactly for the numeric ranges of the registry used by the documentation, and is_private, is_global and the shared range 100.64.0.0/10 are mutually exclusive and exhaustive.", "quantifier": "all 2^32 addresses", "why_tests_cant": "every boundary of 14 ranges in both directions", "anchors": ["include/ipaddress/ip-networks.hpp: networks, props<ipv4_address>", "include/ipaddress/ip-address-base.hpp: is_unspecified"]}
{"id": "C40", "title": "IPv6 classification predicates are the documented ranges", "statement": "is_private, is_global, is_multicast, is_reserved, is_loopback, is_link_local, is_site_local and is_unspecified of an IPv6 address hold exactly for the documented prefixes; IPv4-mapped addresses (and only those) inherit is_private/is_global from the embedded IPv4 address.", "quantifier": "all 2^128 addresses", "why_tests_cant": "2^128 addresses", "anchors": ["include/ipaddress/ip-networks.hpp: props<ipv6_address>", "include/ipaddress/ipv6-address.hpp: ipv4_mapped, is_site_local"]}
{"id": "C41", "title": "Network classification agrees with its addresses", "statement": "A network is classified private/multicast/reserved/loopback/link-local/site-local/unspecified iff every address in it is.", "quantifier": "all networks and all addresses in them", "why_tests_cant": "universal over the addresses of every network", "anchors": ["include/ipaddress/ip-networks.hpp: props<ipv4_network>, props<ipv6_network>", "include/ipaddress/ip-network-base.hpp: is_multicast, is_reserved, is_loopback, is_link_local, is_unspecified", "include/ipaddress/ipv6-network.hpp: is_site_local"]}
{"id": "C42", "title": "uint128 addition, subtraction, negation and multiplication are arithmetic modulo 2^128", "statement": "For all a, b: a+b, a-b, -a, ++a, --a and a*b equal the mathematical result modulo 2^128.", "quantifier": "all pairs of 128-bit values", "why_tests_cant": "2^256 pairs; carries across the 64-bit halves and 32-bit limbs", "anchors": ["include/ipaddress/uint128.hpp: operator+, operator-, operator*, operator++, operator--"]}
{"id": "C43", "title": "uint128 division and remainder", "statement": "For all a and all b != 0, a / b and a % b are the Euclidean quotient and remainder; division by zero yields a fixed value without undefined behaviour.", "quantifier": "all pairs of 128-bit values", "why_tests_cant": "the multi-limb division has rare correction steps that random testing practically never hits", "anchors": ["include/ipaddress/uint128.hpp: divide, divide_slow, operator/, operator%"]}
{"id": "C44", "title": "uint128 shifts", "statement": "a << n and a >> n are multiplication and floor division by 2^n modulo 2^128 for every 0 <= n, giving 0 for n >= 128, with no undefined behaviour for any shift count.", "quantifier": "all values and all shift counts", "why_tests_cant": "the boundary counts 0, 64, 127, 128 and beyond", "anchors": ["include/ipaddress/uint128.hpp: operator<<, operator>>"]}
{"id": "C45", "title": "uint128 comparisons and bitwise operators", "statement": "==, <, <=, >, >= and <=> order values numerically; &, |, ^, ~ act bit by bit; conversion to bool is non-zeroness.", "quantifier": "all pairs", "why_tests_cant": "2^256 pairs", "anchors": ["include/ipaddress/uint128.hpp: operator==, operator<, operator<=>, operator&, operator|, operator^, operator~"]}
{"id": "C46", "title": "uint128 decimal text", "statement": "to_string is the canonical decimal numeral; from_string(to_string(v)) == v; from_string accepts exactly the non-empty decimal numerals denoting values below 2^128 and returns that value.", "quantifier": "all 2^128 values and all strings", "why_tests_cant": "2^128 values; overflow detection ranges over all strings", "anchors": ["include/ipaddress/uint128.hpp: to_string, from_string"]}
{"id": "C47", "title": "uint128 integral conversions", "statement": "Constructing from a signed or unsigned integer gives its value modulo 2^128 and converting to an n-bit integer gives the value modulo 2^n, so construction and conversion round-trip for every integer type.", "quantifier": "all integers of every standard width", "why_tests_cant": "sign extension for all negative values", "anchors": ["include/ipaddress/uint128.hpp: constructors, conversion operators"]}
{"id": "C48", "title": "uint128 floating-point conversions", "statement": "Constructing from a finite non-negative floating-point value below 2^128 truncates toward zero; converting to double gives the nearest representable value; float and long double go through double.", "quantifier": "all doubles, floats, long doubles (of any IEEE binary format) and 128-bit values", "why_tests_cant": "2^64 doubles, 2^128 values", "anchors": ["include/ipaddress/uint128.hpp: from_double / operator double"]}
{"id": "C49", "title": "Version-erased address and network behave as the underlying one", "statement": "ip_address/ip_network::parse tries IPv4 first and then IPv6; the result has the version of the parser that accepted, a string is never accepted by both, and every query on the result equals the query on the underlying versioned object; different versions are never equal and IPv4 orders before IPv6.", "quantifier": "all strings, all addresses and networks of both versions", "why_tests_cant": "disjointness of two infinite languages", "anchors": ["include/ipaddress/ip-any-address.hpp: ip_any_parser, ip_address", "include/ipaddress/ip-any-network.hpp: net_any_parser, ip_network"]}
{"id": "C50", "title": "Version-erased sequences mirror the versioned ones", "statement": "hosts(), subnets() and address_exclude() of ip_network produce element by element the version-erased elements of the underlying network's sequences, with the same size.", "quantifier": "all networks of both versions", "why_tests_cant": "as for the underlying sequences", "anchors": ["include/ipaddress/ip-any-iterator.hpp: ip_any_iterator, hosts_any_sequence, subnets_any_sequence", "include/ipaddress/ip-any-network.hpp: hosts, subnets, address_exclude"]}
{"id": "C51", "title": "Wide and Unicode inputs parse as their ASCII text", "statement": "Parsing a UTF-16 or UTF-32 (wchar_t) string accepts exactly when every code unit is ASCII and the corresponding char string is accepted, with the same result; any non-ASCII symbol is rejected with unexpected_symbol or wrong_encoding_sequence.", "quantifier": "all sequences of 16/32-bit code units", "why_tests_cant": "infinite input space including unpaired surrogates at any position", "anchors": ["include/ipaddress/unicode.hpp: utf16_reader, utf32_reader, char_reader"]}
{"id": "C52", "title": "UTF-8 inputs are decoded strictly", "statement": "Parsing a UTF-8 (char8_t) string accepts only if every code unit is an ASCII character forming an accepted text; ill-formed sequences (truncated, bad continuation, overlong) are always rejected with wrong_encoding_sequence and never read past the end.", "quantifier": "all byte sequences", "why_tests_cant": "all ill-formed byte sequences", "anchors": ["include/ipaddress/unicode.hpp: utf8_reader"]}
{"id": "C53", "title": "fixed_string behaves as a bounded string", "statement": "A fixed_string built from a NUL-terminated array holds exactly the characters before the first NUL, at most N; comparison is lexicographic and total, equality is equality of contents, swap exchanges contents, and back() is the last character.", "quantifier": "all character arrays and capacities", "why_tests_cant": "all contents and lengths", "anchors": ["include/ipaddress/fixed-string.hpp: fixed_string"]}
{"id": "C54", "title": "Error-code and throwing overloads agree", "statement": "For every input the throwing overloads of parse, from_address, supernet, subnets and address_exclude throw iff the error_code overload sets a code other than no_error, and otherwise return the same value; the error_code overload overwrites whatever code was passed in.", "quantifier": "all inputs and all initial values of the code argument", "why_tests_cant": "a stale code left by an earlier call is only visible across histories", "anchors": ["include/ipaddress/ip-network-base.hpp: subnets, supernet, address_exclude, from_address, parse", "include/ipaddress/ip-address-base.hpp: parse_string"]}
{"id": "C55", "title": "Addresses built from raw bytes", "statement": "from_bytes(pointer, count) takes the first min(count, size) bytes and pads with zeros, never reading beyond count bytes; is_unspecified holds exactly for the number zero.", "quantifier": "all byte arrays and counts, both versions", "why_tests_cant": "2^128 addresses, every array length", "anchors": ["include/ipaddress/ip-address-base.hpp: from_bytes, is_unspecified"]}
{"id": "C56", "title": "Literals parse like strings", "statement": "The user-defined literals give the same address as parse on the same text and refuse texts longer than the maximal address text with string_is_too_long.", "quantifier": "all texts without NUL", "why_tests_cant": "infinite input space", "anchors": ["include/ipaddress/ip-address-base.hpp: parse_ip_from_literal"]}
{"id": "C57", "title": "swap exchanges two addresses", "statement": "After a.swap(b) the bytes and scope ids of a and b are exchanged exactly.", "quantifier": "all pairs of addresses of both versions", "why_tests_cant": "2^256 pairs with scope ids of different lengths", "anchors": ["include/ipaddress/ip-address-base.hpp: swap", "include/ipaddress/fixed-string.hpp: swap"]}
{"id": "C58", "title": "Text in every character type reads back", "statement": "to_wstring, to_u8string, to_u16string and to_u32string of addresses, networks, version-erased addresses and networks and uint128_t give the characters of to_string, and parsing that text in the same character type gives the object back.", "quantifier": "all objects of every class, formats, character types and strictness", "why_tests_cant": "infinite combinations of scope ids and character types; only ASCII scope ids are tried", "anchors": ["include/ipaddress/unicode.hpp: string_converter", "include/ipaddress/ip-address-base.hpp: to_wstring, to_u8string, to_u16string, to_u32string", "include/ipaddress/ip-network-base.hpp: to_wstring", "include/ipaddress/ip-any-address.hpp: to_wstring", "include/ipaddress/ip-any-network.hpp: to_wstring"]}
{"id": "C59", "title": "Stream insertion and extraction", "statement": "operator<< writes the text in the format of the preceding manipulator (compressed without one), upper case only before the scope id, padded to the width, and uses the manipulator once; operator>> takes one word, stores the parsed object or on failure the default object with failbit, networks strictly unless non_strict came immediately before; objects of any classes written one after the other are read back.", "quantifier": "all stream states, all objects and finite sequences of insertions with manipulators", "why_tests_cant": "the manipulators are state carried from one operation to the next; histories are unbounded", "anchors": ["include/ipaddress/ip-address-base.hpp: operator<<, operator>>, full, compact, compressed", "include/ipaddress/ip-network-base.hpp: operator<<, operator>>, strict, non_strict", "include/ipaddress/ip-any-address.hpp: operator<<, operator>>", "include/ipaddress/ip-any-network.hpp: operator<<, operator>>"]}
{"id": "C60", "title": "Stream operators of uint128_t", "statement": "operator<< writes the canonical numeral in the radix of the stream flags, padded; operator>> reads it back in the same radix; an extraction that fails leaves the variable unchanged and sets failbit.", "quantifier": "all numbers, stream states and character types", "why_tests_cant": "2^128 values times all flag combinations", "anchors": ["include/ipaddress/uint128.hpp: operator<<, operator>>, to_string, from_string"]}
{"id": "C61", "title": "Exceptions carry the code and quote the input", "statement": "Every throwing parser, set_scope_id, literal and from_address throws parse_error with the code the non-throwing overload reports; supernet and address_exclude throw logic_error; building the message never meets undefined behaviour for any text in any character type; what() identifies the code (and the octet or part number), and quotes the input, symbol by symbol, cut after 100 units with an ellipsis.", "quantifier": "all texts of all five character types, lengths, codes and values", "why_tests_cant": "infinite input space: the message buffer, the cut at 100 units and multi-unit symbols interact; tests compare a few short messages", "anchors": ["include/ipaddress/errors.hpp: raise_error, print, parse_error, logic_error", "include/ipaddress/unicode.hpp: print_symbol_code, print"]}
{"id": "C62", "title": "Mixed, compound and increment operators of uint128_t", "statement": "An operator between a uint128_t and a built-in integer, in either order, gives the result on the integer converted modulo 2^128; comparisons with a non-negative integer are comparisons of the numbers; compound assignments, ++ and -- change only their own variable and to the right value, also when both operands are the same variable; postfix forms return the old value; swap exchanges.", "quantifier": "all values of all built-in integer types and of uint128_t, all aliasings", "why_tests_cant": "2^128 times 2^64 operand pairs; aliased operands are not tried", "anchors": ["include/ipaddress/uint128.hpp: operator+=, operator-=, operator*=, operator/=, operator%=, operator&=, operator|=, operator^=, operator<<=, operator>>=, operator++, operator--, swap", "include/ipaddress/uint128.hpp: free operators on built-in integers"]}
{"id": "C63", "title": "numeric_limits of uint128_t", "statement": "min, lowest and max are the least and greatest values and are reached; the values are exactly 0 .. radix^digits - 1; digits10 is the greatest number of decimal digits every number of which is representable.", "quantifier": "all values of uint128_t", "why_tests_cant": "the bound ranges over 2^128 values", "anchors": ["include/ipaddress/uint128.hpp: std::numeric_limits<uint128_t>"]}
{"id": "C64", "title": "byte_array behaves as a fixed array of bytes", "statement": "The six comparison operators of byte_array<N>, in both operator families, compare the arrays as big-endian numbers; begin..end and rbegin..rend give the elements in order and in reverse; at and operator[] give the element for an index below N and are undefined exactly otherwise; front, back, size and swap (also of an array with itself) are right, for every N including 0.", "quantifier": "all N, all arrays, all indexes, all aliasings", "why_tests_cant": "256^N arrays for every N; out-of-range access cannot be observed by a passing test", "anchors": ["include/ipaddress/byte-array.hpp: byte_array, operator==, operator<=>, operator<"]}
{"id": "C65", "title": "optional behaves as an option", "statement": "Any sequence of constructions, assignments (from nullptr, a value, another optional or itself) and writes through the reference leaves each optional variable holding what the same sequence leaves in a variable holding an option.", "quantifier": "all value types, all finite sequences of statements over any number of variables", "why_tests_cant": "unbounded histories with aliasing", "anchors": ["include/ipaddress/optional.hpp: optional"]}
{"id": "C66", "title": "Reverse iterators mirror the iterators they are made of", "statement": "A reverse iterator made of a well-formed iterator has it as base() and every reverse iterator is made of its base; it reads the element before the base; every form of ++, --, + and - moves the base the other way, postfix forms return the old value, r[n] is *(r + n); differences, uint_diff, == and != are those of the bases in reverse; the order is reversed.", "quantifier": "all well-formed address and network iterators of both versions and version-erased ones, all values of difference_type and of the unsigned type", "why_tests_cant": "2^128 positions and offsets, wrap-around at both ends of the address space", "anchors": ["include/ipaddress/ip-address-iterator.hpp: ip_reverse_iterator", "include/ipaddress/ip-network-iterator.hpp: base, reverse", "include/ipaddress/ip-any-iterator.hpp: base, reverse"]}
{"id": "C67", "title": "Constant texts are read like run-time texts", "statement": "Parsing a character array, a literal operator applied to a text, and the compile-time template parse<>() give exactly the object, or exactly the error, that parsing the same text as a std::basic_string gives, in char, char8_t, char16_t, char32_t and wchar_t, for addresses and networks of one version and version-erased ones; a non-ASCII unit is an encoding error; a terminated array is never read beyond its end; the integer literal n_ipv4 is the address of value n.", "quantifier": "all texts of every length in five character types, six classes, strict and not, all 64-bit integers", "why_tests_cant": "the literal operators are consteval or inlined per type; tests instantiate a handful of constants in each", "anchors": ["include/ipaddress/ip-address-base.hpp: parse<FixedString>, parse(const T(&)[N]), parse_ip_from_literal", "include/ipaddress/ip-network-base.hpp: parse<FixedString, Strict>, parse_net_from_literal", "include/ipaddress/ip-any-address.hpp: parse<FixedString>, operator\"\"_ip", "include/ipaddress/ip-any-network.hpp: parse<FixedString, Strict>, operator\"\"_net", "include/ipaddress/ipv4-address.hpp: operator\"\"_ipv4", "include/ipaddress/fixed-string.hpp: fixed_string(const T(&)[N + 1])"]}
{"id": "C68", "title": "Every scope-id configuration", "statement": "For every setting of the scope-id macros (length 0 to 64, white space permitted or not): the parser accepts exactly the texts whose scope id fits the setting and is otherwise the default parser, never meets undefined behaviour, accepts more as the limit rises without changing any result; the text fits its buffer and reads back; set_scope_id stores exactly the allowed ids and otherwise changes nothing; with scope ids off no '%' is accepted and the setter does nothing.", "quantifier": "all texts, all addresses and scope ids, all 65 lengths times both white-space settings", "why_tests_cant": "each setting is a separate build of the library; tests build one or two of the 130", "anchors": ["include/ipaddress/config.hpp: IPADDRESS_IPV6_SCOPE_MAX_LENGTH, IPADDRESS_SCOPE_ID_SUPPORT_SPACES", "include/ipaddress/base-v6.hpp: is_invalid_scope_id_symbol, split_scope_id, ip_from_string, ip_to_chars", "include/ipaddress/ipv6-address.hpp: set_scope_id, change_scope_id"]}
{"id": "C69", "title": "The class scope, and setting scope ids in any character type", "statement": "A scope shows exactly the text it was made of, says it is a number exactly if that text is a non-empty decimal number, and then gives it modulo 2^32. set_scope_id, for strings and arrays of char, char8_t, char16_t, char32_t and wchar_t, with and without an error code, succeeds exactly when the text has at most 16 units that stand for allowed characters; it then stores the characters before the first NUL and changes nothing else, get_scope_id reads them back, and on an error the address is unchanged. IPv4 addresses of version-erased type ignore the call.", "quantifier": "all addresses, all texts of every length in five character types", "why_tests_cant": "the texts are unbounded, the setters are separate overloads per type, and failure must leave every one of 2^128 addresses unchanged", "anchors": ["include/ipaddress/ipv6-address.hpp: scope, get_scope_id, set_scope_id, change", "include/ipaddress/ip-any-address.hpp: set_scope_id, get_scope_id"]}
{"id": "C70", "title": "The relational operators of every class agree with one strict total order", "statement": "For fixed strings, scopes, addresses, networks, version-erased addresses and networks, and all iterators: ==, !=, <, >, <= and >= return, and are those of one strict total order and its equality (characters lexicographically; number, then scope id; network address, then prefix length; IPv4 before IPv6; position; the reverse order for exclusion iterators), both when rewritten from <=> in C++20 and as written for older standards; swap exchanges the operands.", "quantifier": "all pairs of well-formed objects of every class, all six operators, both families", "why_tests_cant": "pairs over 2^128 addresses times scope ids; the two families are never compiled together", "anchors": ["include/ipaddress/fixed-string.hpp: operator==, operator<=>, operator<", "include/ipaddress/ipv6-address.hpp: scope::operator<", "include/ipaddress/ip-address-base.hpp: operator<=>", "include/ipaddress/ip-network-base.hpp: operator<=>, swap", "include/ipaddress/ip-any-address.hpp: operator<=>", "include/ipaddress/ip-any-network.hpp: operator<=>, swap, v4, v6", "include/ipaddress/ip-address-iterator.hpp: operator<=>", "include/ipaddress/ip-network-iterator.hpp: operator<=>", "include/ipaddress/ip-any-iterator.hpp: operator<=>"]}
{"id": "C71", "title": "Builds without exceptions fail silently, to a default value and to nothing else", "statement": "With IPADDRESS_NO_EXCEPTIONS every function that otherwise throws (parsing strings, arrays and literals, set_scope_id, from_address, supernet, subnets, address_exclude) returns the same value wherever it would return one and, where it would throw, the default object (the unchanged object for set_scope_id, an empty sequence for subnets and address_exclude); for addresses and networks of one version that is the object the overload with an error code leaves.", "quantifier": "all texts in five character types and six classes, all networks, prefixes and differences, both families of operators", "why_tests_cant": "a different build of the library, in which every error path is taken instead of left by a throw", "anchors": ["include/ipaddress/errors.hpp: raise_error", "include/ipaddress/ip-address-base.hpp: parse_string, parse_ip_from_literal", "include/ipaddress/ip-network-base.hpp: parse_address_with_prefix, from_address, supernet, subnets, address_exclude", "include/ipaddress/ip-any-address.hpp: ip_any_parser, operator\"\"_ip", "include/ipaddress/ip-any-network.hpp: net_any_parser", "include/ipaddress/fixed-string.hpp: fixed_string", "include/ipaddress/ip-network-iterator.hpp: subnets_sequence, exclude_network_iterator"]}
{"id": "C72", "title": "Hash values tell similar objects apart", "statement": "In 64 and in 32 bits: addresses that differ in one byte (in particular any two of the same /24 or /120), addresses whose scope ids differ in one character, networks of equal length whose addresses differ in one byte, networks of equal address and different length, and strings that differ in one character never have the same hash; 128-bit numbers that share a half never do in 64 bits; the hash of a fixed_string is FNV-1a.", "quantifier": "all pairs of well-formed addresses, networks, numbers and strings, both widths of size_t", "why_tests_cant": "pairs over 2^128 values; a test can sample no meaningful fraction of the pairs a permutation argument covers", "anchors": ["include/ipaddress/hash.hpp: hash_combine, hash_sum, calc_hash", "include/ipaddress/uint128.hpp: hash", "include/ipaddress/fixed-string.hpp: hash", "include/ipaddress/ipv4-address.hpp: hash", "include/ipaddress/ipv6-address.hpp: hash", "include/ipaddress/ip-network-base.hpp: hash", "include/ipaddress/ip-any-address.hpp: hash", "include/ipaddress/ip-any-network.hpp: hash"]}
{"id": "C73", "title": "Builds that read char as UTF-8", "statement": "With IPADDRESS_CHAR_IS_UTF8 every function taking a text of char (strings, arrays, literals, templates, scope ids, streams, numbers, with exceptions and with error codes, of every class) does what the default build does with the same bytes as char8_t; ASCII texts of char and texts of the other character types are read as in the default build; no scope id then holds anything but ASCII; an address is accepted exactly if its bytes decode, as for char8_t, to an ASCII text the default build accepts.", "quantifier": "all texts and arrays of char, char8_t, char16_t, char32_t and wchar_t, all classes, all codes", "why_tests_cant": "a compile-time switch that changes the reader also of the parsers' own buffers; the test-suite is built with one setting", "anchors": ["include/ipaddress/unicode.hpp: char_reader<char>, utf8_reader", "include/ipaddress/base-v6.hpp: ip_from_string, split_parts", "include/ipaddress/ip-address-base.hpp: parse", "include/ipaddress/ip-network-base.hpp: parse", "include/ipaddress/ip-any-address.hpp: ip_any_parser", "include/ipaddress/ip-any-network.hpp: net_any_parser", "include/ipaddress/ipv6-address.hpp: ipv6_set_scope"]}
{"id": "C74", "title": "What a big-endian host computes", "statement": "On a big-endian host the conversions to and from integers use the bytes of each integer in reverse order (each half of an IPv6 address on its own); they undo each other. IPv4 texts, and IPv6 texts without a dotted quad after the last colon, are read as on a little-endian host; a dotted quad there is read backwards. Networks of IPv4 addresses, their counts, supernets and hosts are the mirror images of those of the mirrored addresses, so 10.0.0.0/8 has host bits set while 0.0.0.10/8 has none; IPv6 networks are built as usual but their counts, supernets and hosts use mirrored integers: the count is right exactly for the prefix lengths 0, 64 and 128. Networks with a mask of whole halves are consistent, and the /64 supernet of a single IPv6 address is that of a little-endian host. A loop over the hosts or (for IPv4) the subnets of a network of more than one address visits the mirror images of what a little-endian host visits for the mirrored network; a loop over the single host of an IPv4 /32 ends after it unless the first octet is 255 (and the address is not 255.255.255.255), when it runs through all addresses; a loop over the single host of an IPv6 /128 does so if the ninth octet is 255 and not all of the lower half are, or if these all are, the first octet is 255 and not all are; subnets of IPv6 networks give other results than on little-endian hosts, except that those with masks of whole halves are mirror images. The only subnet of a single address is that address, and the loop over it behaves as the loop over its hosts. contains and overlaps of IPv4 networks do not depend on the host; subnet_of reports every contained network, but also others, so that address_exclude can throw std::out_of_range; it works as elsewhere inside networks of at most 256 addresses and for a network at the beginning of the other.", "quantifier": "all addresses, integers, texts, prefix lengths and networks of both versions, both byte orders of the host", "why_tests_cant": "the test-suite runs on little-endian hosts, and no such host can take the other branch", "anchors": ["include/ipaddress/endian.hpp: is_little_endian, swap_bytes", "include/ipaddress/base-v4.hpp: ip_to_uint32, ip_from_uint32, ip_from_prefix, parse_netmask, strict_netmask", "include/ipaddress/base-v6.hpp: split_parts", "include/ipaddress/ipv6-address.hpp: from_uint, to_uint", "include/ipaddress/ip-network-base.hpp: from_address, parse_address_with_prefix, addresses_count, supernet, hosts", "include/ipaddress/ip-address-iterator.hpp: add, hosts_sequence"]}
{"id": "C75", "title": "The operations fit together: membership, subnets, supernets, overlap, order, exclusion and classes obey the laws users rely on", "statement": "For well-formed networks without zones: the network made of an address with the host bits cleared holds the address, and an address is in it exactly when it makes the same network; an address is in a network exactly when its one-address network is a subnet of it; one network is a subnet of another exactly when every address it holds is held by the other; two networks overlap exactly when one is a subnet of the other; no network sorts after its own subnet; a network is a subnet of each of its supernets, and supernet of d levels leads back from each element of subnets of d levels; the elements of subnets are strictly increasing, do not overlap, are subnets and have the same number of addresses in total; hosts are members and, for IPv4 below /31, neither the network nor the broadcast address; the pieces of address_exclude do not overlap the excluded network and hold exactly the other addresses (unless that network is the single address of value one, C38), and it fails exactly when the other network is no subnet; a subnet inherits multicast, loopback, link-local, site-local, unspecified, private, and (except from ::/1, which wrongly counts as reserved) reserved, and a network with a global subnet is global; an IPv4 text after \"::ffff:\" parses to the IPv6 address that maps to the IPv4 one, private exactly when it is (is_global differs for 100.64.0.0/10).", "quantifier": "all addresses and networks of both versions, all numbers of levels, both ways of comparing (C++20 and older)", "why_tests_cant": "each law relates two or three operations on all pairs of networks; tests compare single operations with literals", "anchors": ["include/ipaddress/ip-network-base.hpp: contains, overlaps, subnet_of, supernet_of, supernet, subnets, hosts, address_exclude, addresses_count, is_*", "include/ipaddress/ip-address-base.hpp: parse, is_private, is_global", "include/ipaddress/ip-network-iterator.hpp: subnets_sequence, exclude_network_sequence, hosts_sequence", "include/ipaddress/ipv6-address.hpp: ipv4_mapped"]}
{"id": "C76", "title": "Default-constructed objects", "statement": "A default-constructed address is the one that 0.0.0.0 or :: parses to: it is unspecified and no address sorts before it. A default network holds that address and no other. Version-independent objects default to IPv4. A default address iterator stands at address zero, so that k steps lead to address k; a default network iterator yields the default network, but every step leads to the network of all addresses, where further steps stay; the number of steps from such an iterator is undefined for IPv4 (a division by zero) and 0 for IPv6. Default sequences are empty in both directions; stepping a default exclusion iterator leaves it unchanged. A failed subnets call yields such a sequence, so the size of its version-independent form is undefined for IPv4.", "quantifier": "both versions, all numbers of steps, all lengths of loops, all failing arguments of subnets", "why_tests_cant": "default objects mark ends of sequences and results of failed calls; tests look at their text only", "anchors": ["include/ipaddress/ip-address-base.hpp: ip_address_base()", "include/ipaddress/ip-network-base.hpp: ip_network_base(), subnets", "include/ipaddress/ip-any-address.hpp: ip_address()", "include/ipaddress/ip-any-network.hpp: ip_network()", "include/ipaddress/ip-address-iterator.hpp: ip_address_iterator()", "include/ipaddress/ip-network-iterator.hpp: ip_network_iterator(), ip_exclude_network_iterator(), subnets_sequence(), exclude_network_sequence(), uint_diff", "include/ipaddress/ip-any-iterator.hpp: ip_any_iterator(), size"]}
{"id": "C77", "title": "Which error an IPv6 text gives, and the number in its message", "statement": "For every text without NUL the IPv6 parser reports exactly one error, which is the one of the first defect in a fixed order: the scope id (empty or a character that is not allowed before its 17th, else too long), then the fields between colons from the left (more than four characters, more than eight colons, an octet of a dotted quad), then the parts (fewer than three, two gaps, a single leading or trailing colon, more than seven parts beside a gap, not eight without one), then characters that are no hexadecimal digits; and a text has no such defect exactly when it is accepted. The number in the message is the index of the part or octet that the message blames. (This holds for parts of more than four characters. It fails otherwise: an invalid symbol carries the number of all parts, an octet of an embedded dotted quad the number of parts before the quad, and for networks every number is replaced by 0, or by 3 for IPv4 with a dotted mask.)", "quantifier": "all texts without NUL, both versions for networks, every error code", "why_tests_cant": "the texts with errors are infinitely many and several rules compete for each; tests check one text per message and not which rule wins", "anchors": ["include/ipaddress/base-v6.hpp: ip_from_string, split_scope_id, split_parts, get_parts_bound, parse_parts, parse_part", "include/ipaddress/base-v4.hpp: ip_from_string", "include/ipaddress/ip-network-base.hpp: parse_address_with_prefix", "include/ipaddress/errors.hpp: raise_error"]}
{"id": "C78", "title": "No exception leaves a function declared noexcept", "statement": "No call of a function declared noexcept, with any valid arguments, lets an exception out (which would end the program through std::terminate): the overloads of parse, supernet, subnets and address_exclude with an error code, and every operation of iterators obtained from subnets and address_exclude by any sequence of operations, of each version and independent of the version. (It fails for subnets of an IPv6 network exactly when prefix length plus difference overflows size_t: the network iterator is then built with a shorter prefix length and its constructor throws. It also fails for the public constructors: that of the network iterator for an address with host bits, that of the exclusion for a network that is not inside or is the same.)", "quantifier": "all networks of both versions, all size_t arguments, all texts, all finite sequences of iterator operations, both C++20 and older operators", "why_tests_cant": "the property ranges over unbounded sequences of operations and over 2^64 differences; a violation kills the test process instead of failing an assertion", "anchors": ["include/ipaddress/config.hpp: IPADDRESS_NOEXCEPT", "include/ipaddress/ip-network-iterator.hpp: ip_network_iterator, ip_exclude_network_iterator, subnets_sequence", "include/ipaddress/ip-network-base.hpp: subnets, supernet, address_exclude, from_address", "include/ipaddress/ip-any-network.hpp: subnets, supernet, address_exclude", "include/ipaddress/ip-any-iterator.hpp: ip_any_iterator"]}
{"id": "C79", "title": "Readers decode one code point per call, and parsing does not depend on the encoding", "statement": "On a text that holds the encoding (UTF-8, UTF-16, UTF-32) of a Unicode scalar value at the iterator, each char_reader returns the character if it is ASCII and otherwise reports unexpected_symbol with exactly this code point, and leaves the iterator behind the encoding. Hence every parser gives the same result for the encodings of the same text as UTF-8, UTF-16, UTF-32 and wide strings: the same object, or the same error code and number.", "quantifier": "all Unicode scalar values, all positions in all texts, all end pointers behind the encoding, all texts of scalar values, all classes and both strictness settings", "why_tests_cant": "there are 1112064 code points and unboundedly many texts; tests use a few non-ASCII characters and compare no encodings with one another", "anchors": ["include/ipaddress/unicode.hpp: char_reader, utf8_reader, utf16_reader, utf32_reader", "include/ipaddress/ip-address-base.hpp: parse", "include/ipaddress/ip-network-base.hpp: parse", "include/ipaddress/ip-any-address.hpp: parse", "include/ipaddress/ip-any-network.hpp: parse"]}
{"id": "C80", "title": "Readers stay inside the text", "statement": "A call of a char_reader with a non-empty rest reads only units before end, returns, leaves the iterator behind the units the first unit announces and at most at end, and reports wrong_encoding_sequence exactly for ill-formed sequences. (The iterator moves beyond one past the end, which C++ does not allow, exactly when a sequence is cut off by the end: by up to three units for UTF-8 and one for UTF-16. The error is then always wrong_encoding_sequence. A lone low surrogate is reported as unexpected_symbol. Which ill-formed UTF-8 sequences are noticed is characterised exactly.)", "quantifier": "all arrays of units of each character type, all positions and end pointers", "why_tests_cant": "forming a pointer beyond the end has no visible effect on common machines, so no test notices it; the rest ranges over all arrays", "anchors": ["include/ipaddress/unicode.hpp: utf8_next_or_error, trailing_utf8_code_point, utf16_next_or_error, utf32_next_or_error"]}
{"id": "C81", "title": "Addresses and networks under every setting of the scope-id macros", "statement": "For every value of IPADDRESS_NO_IPV6_SCOPE, IPADDRESS_IPV6_SCOPE_MAX_LENGTH and IPADDRESS_SCOPE_ID_SUPPORT_SPACES: IPv6 network parsing is never undefined, accepts exactly the described texts and gives the described network; every network is read back from each of its texts; ==, <=> and swap of addresses and networks are equality, the order and exchange; equal objects have equal hashes, whose values do not depend on the length set; literals are refused exactly when longer than 41 plus this length; every address text without scope id can be used in a network text. (The last fails for every length below four: one character of the longest address texts does not fit, and another network is returned without error. The operator < before C++20 is not an order for any positive length, and is one for length 0.)", "quantifier": "all settings of the three macros, all texts, all addresses and networks that exist under the setting, both strictness settings", "why_tests_cant": "the test suite is built with the default setting only; there are 130 settings and unboundedly many texts", "anchors": ["include/ipaddress/config.hpp: IPADDRESS_IPV6_SCOPE_MAX_LENGTH", "include/ipaddress/base-v6.hpp: base_max_string_len", "include/ipaddress/ipv6-address.hpp: swap, hash, equals, less, compare", "include/ipaddress/ip-network-base.hpp: parse_address_with_prefix", "include/ipaddress/ip-address-base.hpp: parse, parse_ip_from_literal"]}
{"id": "C82", "title": "Texts as keys: order, length and distinctness of texts", "statement": "The full texts of IPv6 addresses (with or without scope id) sort lexicographically exactly like the addresses, and so do the full texts of unscoped IPv6 networks with different addresses; IPv4 texts, compact and compressed IPv6 texts and the texts of networks with equal addresses do not. A full text has 39 characters plus the scope id, a compact text is never longer, a compressed text never longer than the compact one. No text the parser accepts for an address is shorter than its compressed text by more than one character, and one is shorter exactly when a longest run of zero groups inside the address is not the one replaced. Addresses of different value, scope or version have different texts in any formats, so have networks, and no address shares a text with a network.", "quantifier": "all addresses and networks of both versions, all scope ids, all formats, all accepted texts", "why_tests_cant": "order and injectivity relate all pairs of 2^128 addresses, minimality all accepted texts; tests compare a few texts with expected ones", "anchors": ["include/ipaddress/base-v6.hpp: ip_to_chars, ip_to_string", "include/ipaddress/base-v4.hpp: ip_to_string", "include/ipaddress/ip-network-base.hpp: to_string", "include/ipaddress/ipv6-address.hpp: compare"]}
{"id": "C83", "title": "Networks as reverse DNS zones", "statement": "When the prefix length is a multiple of the bits per label (8 for IPv4, 4 for IPv6), an address of either version is contained in a network exactly when its reverse pointer lies in the domain obtained from the reverse pointer of the network address by dropping the labels of the host part, and one network lies in another exactly when its domain lies in the domain of the other. For other prefix lengths no domain name has this property.", "quantifier": "all networks and addresses of both versions, all domain names", "why_tests_cant": "relates membership, decided on bytes, with suffixes of generated texts for all pairs of network and address", "anchors": ["include/ipaddress/base-v4.hpp: ip_reverse_pointer", "include/ipaddress/base-v6.hpp: ip_reverse_pointer", "include/ipaddress/ip-network-base.hpp: contains", "include/ipaddress/ip-any-network.hpp: contains"]}
{"id": "C84", "title": "Which error a network text gives, and its number", "statement": "A network text which is refused is refused for the first of: an undecodable symbol or a second slash, a missing mask, a defect of the mask, a defect of the address, host bits (strict only); the error and its number are exactly those of a specification that describes the texts without reference to the parser. The number of an address defect is not the octet or part at fault but 3 after a dotted mask and 0 otherwise. A text of either version that is refused gets the error of its IPv6 reading, so the host bits of an IPv4 network are never what is reported.", "quantifier": "all sequences of decoded and undecodable symbols, both versions, strict and not", "why_tests_cant": "which of several defects is reported needs an argument for every combination of defects; tests check texts with one defect each", "anchors": ["include/ipaddress/ip-network-base.hpp: parse_address_with_prefix, strict_netmask", "include/ipaddress/base-v4.hpp: parse_netmask", "include/ipaddress/base-v6.hpp: parse_netmask", "include/ipaddress/ip-any-address.hpp: ip_any_parser", "include/ipaddress/ip-any-network.hpp: net_any_parser"]}
{"id": "C85", "title": "Network operations under every setting of the scope-id macros", "statement": "For every value of IPADDRESS_NO_IPV6_SCOPE, IPADDRESS_IPV6_SCOPE_MAX_LENGTH and IPADDRESS_SCOPE_ID_SUPPORT_SPACES and all IPv6 networks that exist under it: from_address builds exactly the described network; contains, overlaps, broadcast_address, hostmask and addresses_count do not depend on scope ids, nor does supernet except that a network of prefix length 0 is returned as it is; hosts, subnets and address_exclude, with their errors, emptiness and loops in both directions, are those of the same networks without scope ids in the default build; subnet_of and supernet_of are inclusion restricted by the order of the scope ids, and inclusion alone when scope ids are off.", "quantifier": "all settings, all networks with scope ids of up to 64 characters, both operator families, all arguments, loops of any length", "why_tests_cant": "the tests are built with the default setting only, and a loop over subnets or hosts cannot be run for all networks", "anchors": ["include/ipaddress/ip-network-base.hpp: is_subnet_of, subnets, address_exclude, hosts, supernet", "include/ipaddress/ip-network-iterator.hpp", "include/ipaddress/ip-address-iterator.hpp: hosts_sequence", "include/ipaddress/ipv6-network.hpp: remove_scope_id", "include/ipaddress/ipv6-address.hpp: equals, less, compare", "include/ipaddress/config.hpp: 154-167"]}
{"id": "C86", "title": "Any combination of the macros", "statement": "In every build made by setting any of IPADDRESS_NO_EXCEPTIONS, IPADDRESS_CHAR_IS_UTF8, IPADDRESS_NO_IPV6_SCOPE, IPADDRESS_IPV6_SCOPE_MAX_LENGTH and IPADDRESS_SCOPE_ID_SUPPORT_SPACES: parsing of strings, arrays and literals of every class and character type, and set_scope_id, give without exceptions the same object, or the empty one (the unchanged one for set_scope_id) where that build with exceptions throws; with char declared UTF-8 they read chars as that build reads the bytes as char8_t, and the other types as before; with neither they read as under the scope-id macros alone; overloads with a code report what the throwing ones raise; the accepted IPv6 addresses and scope ids are exactly those the build's limit, spaces setting and encoding allow; literals have exactly the length limit of the build; with no macro set, or one of the first two, these are the functions of the other properties.", "quantifier": "all settings of the five macros together, all texts of any length, the five character types, all classes, strict or not", "why_tests_cant": "the tests are built in a few of the unboundedly many combinations", "anchors": ["include/ipaddress/config.hpp: 79-167", "include/ipaddress/ip-address-base.hpp: ip_from_string, parse", "include/ipaddress/ip-network-base.hpp: parse_address_with_prefix", "include/ipaddress/ip-any-address.hpp", "include/ipaddress/ip-any-network.hpp", "include/ipaddress/base-v6.hpp: parse_scope_id, ip_from_string", "include/ipaddress/ipv6-address.hpp: ipv6_set_scope", "include/ipaddress/fixed-string.hpp", "include/ipaddress/unicode.hpp"]}
{"id": "C87", "title": "Hosts with a narrower size_t", "statement": "On every host whose size_t has w bits, 32 <= w <= 64: addresses of all three classes are parsed as on a 64-bit host; a network text is parsed as a 64-bit host parses it with the prefix number replaced by its remainder modulo 2^w, so the accepted texts, errors and undefined behaviour are exactly determined, texts whose prefix number is below 2^w (all those the library prints) mean the same everywhere, and for any two widths there is a mask text which one reads as /8 after any address and the other refuses; subnets and the halving of networks give what a 64-bit host gives unless the network's prefix length plus the difference is 2^w or more, in which case IPv4 has undefined behaviour and IPv6 throws, also from the overload with an error code, which throws in no other case.", "quantifier": "all w from 32 to 64, all texts of any length, both versions and the version-erased classes, strict or not, all networks, all size_t arguments", "why_tests_cant": "the tests run on 64-bit hosts, and prefix numbers of 2^32 and more are not among their inputs", "anchors": ["include/ipaddress/base-v4.hpp: parse_netmask, ip_from_prefix, prefix_from_ip_uint32", "include/ipaddress/base-v6.hpp: parse_netmask, get_parts_bound, parse_parts", "include/ipaddress/ip-network-base.hpp: parse_address_with_prefix", "include/ipaddress/ip-network-base.hpp: subnets", "include/ipaddress/ip-any-network.hpp", "include/ipaddress/ip-any-address.hpp"]}
{"id": "C88", "title": "Version-erased classes under every setting of the scope-id macros", "statement": "For every setting of IPADDRESS_NO_IPV6_SCOPE, IPADDRESS_IPV6_SCOPE_MAX_LENGTH and IPADDRESS_SCOPE_ID_SUPPORT_SPACES: the six relational operators of addresses, networks, ip_address and ip_network decide one strict total order agreeing with equality (C++20), or follow the written-out < (older standards); hashes are defined; to_string of ip_address and ip_network gives a text that parses back to the same object; ip_network::parse gives what the parser of the version that accepts gives; subnet_of and supernet_of are inclusion with the condition on scope ids of the default build; hosts(), subnets() and address_exclude(), loops over them in both directions and comparisons of their iterators are those of the network without scope id in the default build.", "quantifier": "all settings of the macros, all addresses and networks of both versions with scope ids of any permitted length, all operators, both families of operators, all subnet arguments, all texts and loop lengths", "why_tests_cant": "a test binary is compiled with one setting; scope ids longer than 16 characters or with spaces are not in the tests of the version-erased classes", "anchors": ["include/ipaddress/ip-any-address.hpp", "include/ipaddress/ip-any-network.hpp", "include/ipaddress/ip-any-iterator.hpp", "include/ipaddress/ip-address-base.hpp: operators", "include/ipaddress/ip-network-base.hpp: operators", "include/ipaddress/ip-network-iterator.hpp: ip_exclude_network_iterator"]}
{"id": "C89", "title": "Text and streams in every build", "statement": "In builds with any combination of IPADDRESS_NO_IPV6_SCOPE, IPADDRESS_IPV6_SCOPE_MAX_LENGTH, IPADDRESS_SCOPE_ID_SUPPORT_SPACES, IPADDRESS_CHAR_IS_UTF8 and IPADDRESS_NO_EXCEPTIONS: to_wstring, to_u8string, to_u16string and to_u32string give texts that parse back; operator<< writes the requested form, padded, and resets the format; operator>> takes the next word, reads it as parse does and on an error stores the default and sets failbit; objects written to a stream one after the other, in either case and any format, are read back.", "quantifier": "all builds, all objects of every class, character types, formats, stream states and lists of objects", "why_tests_cant": "a test binary is compiled with one setting; stream tests use single short objects", "anchors": ["include/ipaddress/ip-address-base.hpp: operator<<, operator>>, to_wstring", "include/ipaddress/ip-network-base.hpp: operator<<, operator>>, to_wstring", "include/ipaddress/ip-any-address.hpp: operator<<, operator>>", "include/ipaddress/ip-any-network.hpp: operator<<, operator>>", "include/ipaddress/config.hpp"]}
{"id": "C90", "title": "Classes, scope ids and exceptions in every build", "statement": "In builds with any combination of IPADDRESS_NO_IPV6_SCOPE, IPADDRESS_IPV6_SCOPE_MAX_LENGTH, IPADDRESS_SCOPE_ID_SUPPORT_SPACES, IPADDRESS_CHAR_IS_UTF8 and IPADDRESS_NO_EXCEPTIONS, and on hosts of either endianness: the tables behind is_private and its kin compile to the same networks, the predicates hold exactly of the addresses and networks of their ranges whatever the scope id, get_scope_id gives the stored text and its number, and the throwing parsers and set_scope_id throw exactly when the overloads with an error code report an error, with the class, code and quoted text C61 requires; builds without exceptions throw nothing.", "quantifier": "all builds, all addresses, networks, scope ids, texts, arrays and character types", "why_tests_cant": "a test binary is compiled with one setting on one host; most combinations are never built", "anchors": ["include/ipaddress/ip-networks.hpp", "include/ipaddress/ipv6-address.hpp: set_scope_id, get_scope_id", "include/ipaddress/errors.hpp: raise_error", "include/ipaddress/ip-address-base.hpp: parse", "include/ipaddress/ip-network-base.hpp: parse, is_*", "include/ipaddress/config.hpp"]}
{"id": "C91", "title": "Network operations without exceptions under every scope-id setting", "statement": "In builds with IPADDRESS_NO_EXCEPTIONS and any setting of IPADDRESS_NO_IPV6_SCOPE, IPADDRESS_IPV6_SCOPE_MAX_LENGTH and IPADDRESS_SCOPE_ID_SUPPORT_SPACES, subnets and address_exclude of ipv6_network and ip_network return the empty sequence where the build with exceptions throws, and otherwise a sequence whose loop visits the same networks; the overloads with an error code do what they do in the build with exceptions; and an iterator of exclusion constructed for a network that is not inside never moves, where the build with exceptions throws.", "quantifier": "all settings, all networks with any scope ids the setting can hold, all arguments whose sum of prefix lengths does not wrap, both versions of the comparison operators", "why_tests_cant": "the combinations of these macros are not built by the tests", "anchors": ["include/ipaddress/ip-network-base.hpp: subnets, address_exclude", "include/ipaddress/ip-any-network.hpp: subnets, address_exclude", "include/ipaddress/ip-network-iterator.hpp", "include/ipaddress/ipv6-network.hpp: remove_scope_id", "include/ipaddress/errors.hpp: raise_error", "include/ipaddress/config.hpp"]}
{"id": "C92", "title": "Version-erased objects only touch the active member of their union", "statement": "ip_address, ip_network and ip_any_iterator hold a union of a version 4 and a version 6 object next to a version tag. For every object a program can build with the constructors, parsing, set_scope_id, swap, iterator arithmetic and the functions that return such objects, the tag names the active member; and then every function, also on two objects of different versions, reads and updates only active members, never calls value() on an empty optional, and does what the versioned code does.", "quantifier": "all objects reachable by any sequence of these operations, all arguments, all pairs of objects of equal or different versions, both versions of the comparison operators", "why_tests_cant": "reading an inactive member is undefined behaviour that usually goes unnoticed at run time; the tests do not enumerate histories of objects", "anchors": ["include/ipaddress/ip-any-address.hpp: ip_address, union ip_any_address", "include/ipaddress/ip-any-network.hpp: ip_network, union ip_any_network", "include/ipaddress/ip-any-iterator.hpp: ip_any_iterator, union ip_any_iter", "include/ipaddress/ip-network-iterator.hpp: ip_exclude_network_iterator", "include/ipaddress/optional.hpp: value"]}
{"id": "C93", "title": "Version-erased addresses and networks on big-endian hosts", "statement": "On a little-endian host the version-erased functions are those of the other properties. On a big-endian one ip_address reads the same texts, except that a dotted quad at the end of an IPv6 text comes out backwards; to_uint32, to_uint128 and from_uint use the integer of the mirrored bytes; ip_network reads an IPv4 network exactly if the mirrored text is one elsewhere, and texts without dots (or without slashes and colons) alike; from_address, supernet, hosts() and subnets() of IPv4 networks, with size, elements and loops in both directions, are the mirror of what a little-endian host computes on the mirror. So 10.0.0.0/8 is refused, 0.0.0.10/8 accepted, hosts() of an IPv6 network may leave the network, subnets() and supernet of IPv6 networks can fail, address_exclude can throw std::out_of_range (not in IPv4 networks of at most 256 addresses or for a network at the beginning of the other), iterators compare in another order than their positions and a loop over a single address can run through all addresses.", "quantifier": "all texts, all addresses, all networks of valid bytes, all prefix lengths, all positions and loop lengths; both versions of the comparison operators", "why_tests_cant": "the tests run on little-endian machines only", "anchors": ["include/ipaddress/endian.hpp: is_little_endian", "include/ipaddress/ip-any-address.hpp: ip_any_parser, from_uint, to_uint32, to_uint128", "include/ipaddress/ip-any-network.hpp: net_any_parser, from_address, supernet, hosts, subnets, address_exclude", "include/ipaddress/ip-any-iterator.hpp: ip_any_iterator", "include/ipaddress/ip-address-iterator.hpp: sub, base, reverse"]}
