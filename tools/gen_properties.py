#!/usr/bin/env python3
"""Writes /verif/properties.jsonl (one JSON object per line)."""
import json, os
P = []
def p(id, title, statement, quantifier, why, anchors):
    P.append(dict(id=id, title=title, statement=statement, quantifier=quantifier,
                  why_tests_cant=why, anchors=anchors))

INF = "The input space is unbounded; a test samples finitely many points."

p("C01", "Signed big-endian integer codec is exact and shortest",
  "For every integer v, int_to_bytes(v, signed=True) succeeds, int_from_bytes(.., signed=True) of the result is v, and the result is the shortest non-empty two's-complement big-endian byte string for v (no shorter byte string decodes to v, and no other byte string of the same length does).",
  "all Python integers, of any magnitude and sign",
  INF + " Sign boundaries (-128, 128, -32768, ...) recur at every byte length.",
  ["asn1crypto/util.py:int_to_bytes", "asn1crypto/util.py:int_from_bytes"])
p("C02", "Unsigned / fixed-width integer codec",
  "For every v >= 0 and every width w: int_to_bytes(v, width=w) returns exactly w bytes whose big-endian value is v when v < 256^w and raises OverflowError otherwise; without a width the result is the shortest encoding and int_from_bytes gives v back. A negative value without signed=True raises OverflowError.",
  "all integers and all widths", INF,
  ["asn1crypto/util.py:int_to_bytes", "asn1crypto/util.py:int_from_bytes", "asn1crypto/util.py:fill_width"])
p("C03", "parser.emit then parser.parse is the identity",
  "For every class 0..3, method 0..1, tag >= 0 and byte string c, emit(class, method, tag, c) succeeds and parse(emit(..), strict=True) returns exactly (class, method, tag, header, c, b'') where header is the emitted prefix.",
  "all class/method/tag numbers and all content byte strings of any length (below 2^1008 bytes)", INF,
  ["asn1crypto/parser.py:emit", "asn1crypto/parser.py:parse", "asn1crypto/parser.py:_dump_header", "asn1crypto/parser.py:_parse"])
p("C04", "parse returns exactly the bytes it consumed",
  "Whenever parse(data) succeeds with (class, method, tag, header, content, trailer): header + content + trailer is a prefix of data, its length is peek(data), trailer is empty or 00 00, 0 <= class <= 3, 0 <= method <= 1 and tag >= 0. No byte outside the input is invented and none inside the consumed range is lost.",
  "every byte string", INF + " Indefinite-length nesting gives unboundedly many shapes.",
  ["asn1crypto/parser.py:parse", "asn1crypto/parser.py:peek", "asn1crypto/parser.py:_parse"])
p("C05", "Encodings are self-delimiting; strict means no trailing data",
  "If parse(x) succeeds then for every y parse(x + y) returns the same tuple and peek(x + y) = peek(x); parse(x, strict=True) succeeds iff parse(x) succeeds and peek(x) = len(x), and otherwise raises ValueError.",
  "every pair of byte strings", "Quantifies over every possible suffix.",
  ["asn1crypto/parser.py:parse", "asn1crypto/parser.py:peek", "asn1crypto/parser.py:_parse"])
p("C06", "Parsing is total: result or ValueError, bounded nesting",
  "For every byte string, parse and peek terminate and either return a result or raise ValueError (never IndexError, struct.error, RecursionError or a hang). Indefinite-length values nested deeper than the documented limit are rejected with ValueError.",
  "every byte string, including adversarial ones", "Termination and absence of other exceptions over all inputs is not testable.",
  ["asn1crypto/parser.py:_parse", "asn1crypto/parser.py:_MAX_DEPTH", "asn1crypto/parser.py:peek"])
p("C07", "Emitted headers are DER-minimal",
  "The identifier+length octets written by emit are the shortest that encode the given class, method, tag and length: any input that parses (definite length) to the same class/method/tag/content has a header at least as long, and if it has the same length the header is identical.",
  "all emitted values compared with all definite-length encodings of the same value", "Compares against every alternative encoding.",
  ["asn1crypto/parser.py:emit", "asn1crypto/parser.py:_dump_header", "asn1crypto/parser.py:_parse"])
p("C08", "Truncation is always detected",
  "If parse(x) succeeds and consumes all of x, then parse of every proper prefix of x raises ValueError.",
  "every accepted byte string and every cut point", "Every cut point of every input.",
  ["asn1crypto/parser.py:parse", "asn1crypto/parser.py:_parse"])
p("C09", "Back-to-back values split uniquely",
  "For every list of values, repeatedly calling peek/parse on the concatenation of their emitted encodings yields exactly the original list, in order, and ends exactly at the end of the data; the same holds for the concatenation of any individually accepted encodings (BER included).",
  "all lists of encodings", INF,
  ["asn1crypto/parser.py:peek", "asn1crypto/parser.py:parse", "asn1crypto/parser.py:emit"])
p("C10", "Integer value round trip and canonical form",
  "For every integer v, Integer(v).dump() is the DER encoding of v, Integer.load of it has native v, and two Integers dump to the same bytes iff they hold the same value; loading any non-empty content octets gives the two's-complement value of those octets.",
  "all integers; all content octets", INF,
  ["asn1crypto/core.py:Integer.set", "asn1crypto/core.py:Integer.native", "asn1crypto/core.py:Asn1Value.dump"])
p("C11", "ObjectIdentifier dotted round trip",
  "For every list of arcs [a0, a1, ...] that is a legal OID (a0 <= 2, a1 < 40 when a0 < 2, at least two arcs, all non-negative), ObjectIdentifier(dotted) encodes it and .dotted of the loaded encoding is the same dotted string; the encoding is the X.690 base-128 encoding with no padded sub-identifier, and distinct OIDs have distinct encodings.",
  "all legal object identifiers, any number of arcs of any size", INF,
  ["asn1crypto/core.py:ObjectIdentifier.set", "asn1crypto/core.py:ObjectIdentifier.dotted"])
p("C12", "Invalid OID text is rejected",
  "ObjectIdentifier(text) raises ValueError for every dotted text that does not denote a legal OID (single arc, first arc > 2, second arc >= 40 under 0/1, negative arc), instead of producing an encoding.",
  "all dotted strings", INF,
  ["asn1crypto/core.py:ObjectIdentifier.set"])
p("C13", "Malformed OID contents are rejected or decode injectively",
  "Two different content octet strings accepted by ObjectIdentifier.load never report the same .dotted (truncated final sub-identifiers and 0x80-padded sub-identifiers are rejected).",
  "all content octet strings", INF,
  ["asn1crypto/core.py:ObjectIdentifier.dotted"])
p("C14", "Unnamed BitString round trip",
  "For every tuple of bits b, BitString(b) encodes to octets whose first octet is the unused-bit count (0..7, zero padding bits) and loading that encoding gives native b again; the encoding is injective in b.",
  "all finite bit tuples", INF,
  ["asn1crypto/core.py:BitString.set", "asn1crypto/core.py:BitString.native", "asn1crypto/core.py:_int_to_bit_tuple", "asn1crypto/core.py:_IntegerBitString"])
p("C15", "Named BitString round trip in DER form",
  "For every named-bit class and every subset s of its names, setting s and loading the encoding gives s back; the encoding has no trailing zero bits (DER) and depends only on the set.",
  "all name maps and all subsets", "All maps x all subsets.",
  ["asn1crypto/core.py:BitString.set", "asn1crypto/core.py:BitString.native"])
p("C16", "Octet / integer string views round trip",
  "For every byte string, OctetString and OctetBitString store and return it unchanged; for every v >= 0, IntegerBitString(v) and IntegerOctetString(v) return v after a dump/load cycle, and with set_encoded_width(w) the encoded contents have exactly w octets whenever v fits, re-applied on every later set.",
  "all byte strings, all non-negative integers, all widths", INF,
  ["asn1crypto/core.py:OctetString", "asn1crypto/core.py:OctetBitString", "asn1crypto/core.py:IntegerBitString", "asn1crypto/core.py:IntegerOctetString"])
p("C17", "Indefinite-length strings equal the concatenation of their chunks",
  "For every way of splitting a string value into (arbitrarily nested, up to the depth limit) chunks in an indefinite-length constructed encoding, the loaded value's native equals the concatenation, and dump(force=True) is the single definite-length primitive DER encoding of that concatenation. For bit strings, a chunk other than the last with unused bits is rejected.",
  "all chunkings of all values", "All trees of chunks.",
  ["asn1crypto/core.py:Constructable._merge_chunks", "asn1crypto/core.py:OctetString", "asn1crypto/core.py:BitString", "asn1crypto/core.py:AbstractString"])
p("C18", "Character string codecs round trip",
  "For every sequence of Unicode scalar values representable in the string type (ASCII/latin1 subsets, BMPString UTF-16-BE, UniversalString UTF-32-BE, UTF8String, TeletexString), encoding then decoding returns the same text; unrepresentable characters raise instead of being altered; the encodings are injective.",
  "all Unicode strings", INF,
  ["asn1crypto/core.py:AbstractString", "asn1crypto/core.py:UTF8String", "asn1crypto/core.py:BMPString", "asn1crypto/core.py:UniversalString", "asn1crypto/_teletex_codec.py"])
p("C19", "UTCTime round trip on 1950-2049",
  "For every instant in 1950..2049 (whole seconds, any UTC offset), UTCTime.set accepts it, writes the 13-character DER form YYMMDDHHMMSSZ, and the loaded native is the same instant in UTC; datetimes whose UTC year is outside the window are rejected (ValueError, or OverflowError when the UTC instant is outside the years 1..9999).",
  "all timezone-aware datetimes", "All instants and offsets, including offsets that cross the window edge.",
  ["asn1crypto/core.py:UTCTime", "asn1crypto/core.py:AbstractTime"])
p("C20", "GeneralizedTime round trip",
  "For every timezone-aware datetime with microseconds, GeneralizedTime.set writes the DER form (Z, no trailing zeros in the fraction, no bare dot) and the loaded native is the same instant to the microsecond.",
  "all timezone-aware datetimes from year 1000 to 9999 (and year 0)", INF,
  ["asn1crypto/core.py:GeneralizedTime", "asn1crypto/core.py:AbstractTime._parsed_time"])
p("C21", "Explicit and implicit tagging round trip",
  "For every primitive value and every tagging (any nesting of explicit class/tag wrappers plus an optional implicit override), loading the dumped bytes with the same tagging gives back the same contents, and loading with a different outer class, tag or missing wrapper raises ValueError.",
  "all tag/class combinations and nesting depths, all values", INF,
  ["asn1crypto/core.py:Asn1Value.__init__", "asn1crypto/core.py:Asn1Value.dump", "asn1crypto/core.py:_build", "asn1crypto/core.py:Asn1Value.retag", "asn1crypto/core.py:Asn1Value.untag"])
p("C22", "load then dump preserves the bytes",
  "For every spec and every byte string x accepted by load with a definite outer length, load(x).dump() equals the consumed bytes of x exactly, even if x is BER rather than DER (so signatures over the original bytes stay verifiable).",
  "every accepted byte string", INF,
  ["asn1crypto/core.py:Asn1Value.load", "asn1crypto/core.py:Asn1Value.dump", "asn1crypto/core.py:Primitive.dump", "asn1crypto/core.py:Sequence.dump", "asn1crypto/core.py:_parse_build", "asn1crypto/core.py:_build"])
p("C23", "Forced dump is canonical and idempotent",
  "dump(force=True) after loading any accepted encoding of a value gives the DER encoding of that value; it depends only on the value, and reloading and force-dumping again gives the same bytes.",
  "all accepted encodings", INF,
  ["asn1crypto/core.py:Primitive.dump", "asn1crypto/core.py:Sequence.dump", "asn1crypto/core.py:SequenceOf.dump"])
p("C24", "Structured values round trip for every schema",
  "For every schema built from primitives, Sequence (optional/default/tagged fields), SequenceOf, SetOf, explicit/implicit tags and Choice, in which adjacent optional fields are distinguishable by tag, and for every value v of that schema: constructing from v, dumping, and loading gives native v.",
  "all schemas and all values", "Quantifies over the schema itself as well as the data.",
  ["asn1crypto/core.py:Sequence", "asn1crypto/core.py:SequenceOf", "asn1crypto/core.py:SetOf", "asn1crypto/core.py:Choice", "asn1crypto/core.py:Sequence._parse_children", "asn1crypto/core.py:Sequence._set_contents"])
p("C25", "DEFAULT values are never encoded, absent ones read as the default",
  "For every Sequence schema with defaults, a field equal to its default contributes no bytes to a forced dump, and a field absent from the encoding reads as the default value; omitted OPTIONAL fields read as None.",
  "all schemas and values", INF,
  ["asn1crypto/core.py:Sequence._set_contents", "asn1crypto/core.py:Sequence._make_value", "asn1crypto/core.py:Sequence._parse_children"])
p("C26", "SequenceOf behaves as a Python list under any history",
  "For every sequence of append/insert-by-index/assign/delete/read/len/dump operations starting from any loaded or constructed SequenceOf, each result and the final dump equal those of an ordinary list of the element values.",
  "all operation histories", "All histories, interleaved with lazy parsing and dumps.",
  ["asn1crypto/core.py:SequenceOf"])
p("C27", "SetOf encoding is order independent",
  "For every list of elements and every permutation of it, the forced dump of the SetOf is the same, is sorted in DER order, and contains exactly the element encodings (with multiplicity).",
  "all lists and permutations", "n! permutations for each n.",
  ["asn1crypto/core.py:SetOf._set_contents"])
p("C28", "Choice selects the alternative determined by the tag",
  "For every Choice whose alternatives have pairwise distinct outer tags, loading an encoding selects exactly the alternative whose tag matches, raises ValueError when none matches, and dump returns the loaded bytes; a constructed Choice dumps to exactly the encoding of the tagged alternative.",
  "all Choice schemas and encodings", INF,
  ["asn1crypto/core.py:Choice", "asn1crypto/core.py:Choice.validate", "asn1crypto/core.py:Choice.dump"])
p("C29", "Reading never changes what is dumped",
  "For every loaded structure and every sequence of read operations (item access, native, iteration, len, contents, dump without force), a subsequent dump() returns the same bytes it would have returned before the reads.",
  "all structures, all read histories", "Lazy parsing makes each read a state change; all interleavings.",
  ["asn1crypto/core.py:Sequence._lazy_child", "asn1crypto/core.py:Sequence._parse_children", "asn1crypto/core.py:Sequence._is_mutated", "asn1crypto/core.py:Sequence.dump"])
p("C30", "Mutations are visible in the parent's dump",
  "For every structure and every history of assignments and deletions on it and on its nested containers, interleaved with reads and dumps of any part, the final dump of the root encodes the final field values.",
  "all structures, all interleaved histories", "All interleavings of nested mutation and caching.",
  ["asn1crypto/core.py:Sequence.__setitem__", "asn1crypto/core.py:Sequence._is_mutated", "asn1crypto/core.py:Sequence.contents", "asn1crypto/core.py:Sequence.dump"])
p("C31", "Value equality of primitives is an equivalence tied to the encoding",
  "For all primitive values, == is reflexive, symmetric and transitive, and a == b holds exactly when class, tag and contents coincide, hence equal values of one type dump to the same bytes.",
  "all triples of primitive values", INF,
  ["asn1crypto/core.py:Primitive.__eq__"])
p("C32", "PEM armor / unarmor round trip",
  "For every byte string der, every type name over [A-Z0-9 ]+ and every list of headers with distinct clean keys and values, unarmor(armor(type, der, headers)) returns (type, headers, der), and detect of the armored text is True.",
  "all byte strings, labels and header lists", INF + " Line wrapping and padding vary with the length mod 48.",
  ["asn1crypto/pem.py:armor", "asn1crypto/pem.py:unarmor", "asn1crypto/pem.py:_unarmor", "asn1crypto/pem.py:detect"])
p("C33", "Multi-block PEM round trip",
  "Concatenating the armored form of any non-empty list of blocks and unarmoring with multiple=True yields exactly that list in order; surrounding non-PEM lines are ignored.",
  "all lists of blocks", INF,
  ["asn1crypto/pem.py:_unarmor", "asn1crypto/pem.py:unarmor"])
p("C34", "IPAddress value round trip",
  "For every IPv4/IPv6 address and every prefix length, IPAddress set to the text form has the DER contents of RFC 5280 (address, or address+mask) and native gives the same text back.",
  "all addresses and prefix lengths", "2^128 addresses.",
  ["asn1crypto/x509.py:IPAddress"])
p("C35", "inet_ntop / inet_pton shim round trip",
  "For every 4-octet and 16-octet address, the fallback inet_pton(inet_ntop(a)) = a, and inet_ntop is injective.",
  "all IPv4 and IPv6 addresses", "2^128 addresses.",
  ["asn1crypto/_inet.py:inet_ntop", "asn1crypto/_inet.py:inet_pton"])
p("C36", "Name comparison is an equivalence consistent with hashable",
  "For all Names, == is an equivalence relation, equal Names have equal .hashable, and the relation is insensitive to attribute order within an RDN, to case and to insignificant spaces.",
  "all triples of names", INF,
  ["asn1crypto/x509.py:Name", "asn1crypto/x509.py:RelativeDistinguishedName", "asn1crypto/x509.py:NameTypeAndValue"])
p("C37", "Equal Names have the same attributes",
  "Two Names compare equal only if corresponding RDNs carry the same multiset of (type, prepared value) pairs.",
  "all pairs of names", INF,
  ["asn1crypto/x509.py:RelativeDistinguishedName.__eq__", "asn1crypto/x509.py:RelativeDistinguishedName._get_values"])
p("C38", "Wildcard host matching is confined to the left-most label",
  "Certificate.is_valid_domain_ip(domain) is True for a DNS name only if some listed name equals it case-insensitively or has the same number of labels, equal labels after the first, and a single '*' in its first label (outside an xn-- label) matching the domain's first label; a wildcard never spans a dot.",
  "all host names and all certificates' name lists", INF,
  ["asn1crypto/x509.py:Certificate.is_valid_domain_ip", "asn1crypto/x509.py:Certificate._is_wildcard_domain", "asn1crypto/x509.py:Certificate._is_wildcard_match"])
p("C39", "EC point coordinates round trip",
  "For all x, y >= 0 accepted by ECPointBitString/OctetString.from_coords, to_coords returns (x, y); compressed or malformed points raise ValueError; every pair of field elements is accepted.",
  "all coordinate pairs", INF,
  ["asn1crypto/keys.py:_ECPoint.from_coords", "asn1crypto/keys.py:_ECPoint.to_coords"])
p("C40", "P1363 signature conversion round trip",
  "For all r, s >= 0 and every admissible width w, from_p1363(DSASignature(r,s).to_p1363(w)) = (r, s), the output has exactly 2w octets, and too small widths raise ValueError; for every even-length non-empty byte string d, to_p1363(from_p1363(d), len(d)/2) = d.",
  "all r, s, widths and byte strings", INF,
  ["asn1crypto/algos.py:DSASignature.from_p1363", "asn1crypto/algos.py:DSASignature.to_p1363"])
p("C41", "Value maps are consistent both ways",
  "For every OID/integer/enumerated map declared in the library: map(unmap(name)) = name for every name, and unmap(map(x)) = x for every x except for the documented aliases, so re-encoding a mapped value never changes its meaning.",
  "all maps in the library, all entries; and for user maps, all injective maps", "User-defined maps are arbitrary; the round trip must hold for each.",
  ["asn1crypto/core.py:ValueMap", "asn1crypto/core.py:ObjectIdentifier.map", "asn1crypto/core.py:ObjectIdentifier.unmap", "asn1crypto/algos.py", "asn1crypto/x509.py", "asn1crypto/keys.py"])
p("C42", "Signature algorithm lookups are total and consistent",
  "For every OID known to SignedDigestAlgorithmId, signature_algo returns one of the documented names, and hash_algo/cms_hash_algo agree with the digest named by the algorithm, or raise ValueError only for algorithms without a fixed digest.",
  "all registered algorithm identifiers", "A table-wide invariant; tests check chosen rows.",
  ["asn1crypto/algos.py:SignedDigestAlgorithm.signature_algo", "asn1crypto/algos.py:SignedDigestAlgorithm.hash_algo", "asn1crypto/algos.py:SignedDigestAlgorithm.cms_hash_algo"])
p("C43", "extended_datetime is totally ordered and arithmetic is consistent",
  "For all extended_datetime / aware datetime values, comparison is a total order consistent with ==, (a + d) - a = d and (a + d) - d = a whenever the results stay in range, and conversion to/from the y2k-shifted form is exact.",
  "all values of year 0 and all time deltas", INF,
  ["asn1crypto/util.py:extended_datetime"])
p("C44", "Failed assignment leaves the value unchanged",
  "If set(v) raises on a primitive value, the object's subsequent native and dump() are what they were before the call.",
  "all values and all invalid arguments", "Every failure point of every setter.",
  ["asn1crypto/core.py:Integer.set", "asn1crypto/core.py:ObjectIdentifier.set", "asn1crypto/core.py:BitString.set", "asn1crypto/core.py:AbstractString.set"])
p("C45", "set replaces every view of a value",
  "After a successful set(v) on any primitive, every accessor (native, dotted, parsed, contents, dump with or without force) reports the new value, whatever was read before.",
  "all histories of reads followed by a set", "All read/set interleavings (caches).",
  ["asn1crypto/core.py:ObjectIdentifier.set", "asn1crypto/core.py:ObjectIdentifier.dotted", "asn1crypto/core.py:ParsableOctetString.set", "asn1crypto/core.py:ParsableOctetString.parsed"])
p("C46", "Explicit wrappers contain exactly one value",
  "Loading a value with explicit tagging succeeds only if the wrapper holds exactly one encoding; otherwise ValueError is raised (so that dump can reproduce the input).",
  "all byte strings and all explicit taggings", INF,
  ["asn1crypto/core.py:_build"])
p("C47", "Indefinite-length input is accepted wherever definite length is",
  "For every spec, replacing the definite-length form of a constructed value by the indefinite-length form of the same contents does not change whether load accepts it nor the resulting native value (Choice included).",
  "all specs and encodings", INF,
  ["asn1crypto/core.py:_build", "asn1crypto/core.py:Choice"])
p("C48", "SET with optional or default fields encodes in DER order",
  "For every Set schema and every value, dump() succeeds and lists the present components in ascending tag order (class first), and loading gives the value back.",
  "all Set schemas and values", INF,
  ["asn1crypto/core.py:Set._set_contents", "asn1crypto/core.py:Set._parse_children"])
p("C49", "Percent-encoding of IRIs is lossless",
  "For every text segment, unquoting the quoted form returns the same text; reserved characters that were escaped stay escaped and those that were literal stay literal.",
  "all Unicode strings", INF,
  ["asn1crypto/_iri.py:_urlquote", "asn1crypto/_iri.py:_urlunquote"])
p("C50", "Extension lookup reports every critical extension",
  "For every list of extensions in a certificate, CRL or OCSP structure, critical_extensions is exactly the set of identifiers marked critical and each *_value accessor returns the parsed value of the (last) extension with that identifier, or None when absent; later reads return the same answers.",
  "all extension lists", INF,
  ["asn1crypto/x509.py:Certificate._set_extensions", "asn1crypto/crl.py:CertificateList._set_extensions", "asn1crypto/ocsp.py"])
p("C51", "Unknown bit names are rejected",
  "Setting a named BitString to a set containing a name that is not in its map raises an error instead of silently encoding a different set.",
  "all name maps and all sets of names", INF,
  ["asn1crypto/core.py:BitString.set"])
p("C52", "native of an accepted encoding never fails with an unexpected exception",
  "For every encoding of a primitive type that load accepts, reading .native either returns a value or raises ValueError (never IndexError, KeyError, OverflowError or TypeError).",
  "all content octets of all primitive types", INF,
  ["asn1crypto/core.py:BitString.native", "asn1crypto/core.py:Enumerated.native", "asn1crypto/core.py:GeneralizedTime"])
p("C53", "Times have one accepted spelling of their end",
  "Contents of a UTCTime or GeneralizedTime that carry anything after the time value (such as a line feed) are rejected, so that no two contents differing only in trailing junk read as the same time.",
  "all contents", INF,
  ["asn1crypto/core.py:UTCTime._TIMESTRING_RE", "asn1crypto/core.py:GeneralizedTime._TIMESTRING_RE"])

p("C54", "load raises only ValueError",
  "For every primitive class, every combination of tagging arguments and every byte string, load either returns an object or raises ValueError.",
  "all classes, taggings and byte strings", INF,
  ["asn1crypto/core.py:_build", "asn1crypto/core.py:Asn1Value.load"])
p("C55", "Every history of operations on a primitive agrees with the last value assigned",
  "Starting from a value constructed or loaded from its DER encoding, and for every sequence of native reads, dumps (forced or not) and assignments, each read returns the value assigned last and each dump returns its DER encoding under the object's tagging.",
  "all classes, values, taggings and operation sequences", INF,
  ["asn1crypto/core.py:Primitive", "asn1crypto/core.py:Asn1Value.dump"])
p("C56", "copy and retag keep the value and change only the tagging",
  "After any history of operations, copy() gives an object and retag() gives an object with the new tagging whose later behaviour (reads, dumps, assignments) is that of an object constructed with the current value.",
  "all histories before and after, all taggings", INF,
  ["asn1crypto/core.py:Asn1Value.copy", "asn1crypto/core.py:Asn1Value.retag", "asn1crypto/core.py:Asn1Value._copy"])
p("C57", "set_encoded_width is kept by every later assignment",
  "After set_encoded_width(n) on an IntegerOctetString, every dump in any later history holds exactly n octets whose big-endian value is the integer assigned last.",
  "all widths, values and histories", INF,
  ["asn1crypto/core.py:IntegerOctetString.set_encoded_width", "asn1crypto/core.py:IntegerOctetString.set"])
p("C58", "Exactly the BER forms of times are accepted, with the right meaning",
  "A text is accepted by UTCTime or GeneralizedTime exactly when it is one of the forms of X.680 (optional seconds, minutes, fraction and offset) optionally followed by one line feed, and it then reads as the date, time and offset it denotes (the fraction rounded to the microsecond).",
  "all texts", INF,
  ["asn1crypto/core.py:AbstractTime._parsed_time", "asn1crypto/core.py:UTCTime", "asn1crypto/core.py:GeneralizedTime"])
p("C59", "Repeated reads agree",
  "For every loaded structure and every sequence of reads, native gives the same value each time, whatever was read before, also when an earlier read raised an exception.",
  "all structures and read histories", INF,
  ["asn1crypto/core.py:Sequence.native", "asn1crypto/core.py:SequenceOf.native", "asn1crypto/core.py:Choice.native"])
p("C60", "unused_bits reports the padding of the encoding",
  "For every bit string loaded from a definite-length encoding with u unused bits, unused_bits gives exactly the last u bits of the contents, however often the value was read before.",
  "all contents and numbers of reads", INF,
  ["asn1crypto/core.py:_IntegerBitString.unused_bits", "asn1crypto/core.py:OctetBitString.unused_bits"])

p("C61", "Damaged PEM text is reported",
  "For every PEM text in which a block lacks its last line, is cut off, has characters outside base64 in its body or ends with another label, unarmor raises ValueError; armor refuses labels unarmor cannot read.",
  "all PEM texts and damages", INF,
  ["asn1crypto/pem.py:_unarmor", "asn1crypto/pem.py:armor"])
p("C62", "PEM reading does not depend on line ends",
  "For every text, unarmor gives the same result whether lines end in LF, CR LF or CR and whether there are empty lines.",
  "all texts", INF,
  ["asn1crypto/pem.py:_unarmor"])
p("C63", "Malformed IP addresses are refused",
  "For every text that is not an IP address or has a prefix length out of range, setting an IPAddress to it raises ValueError and leaves the object as it was; every text that is accepted is an address.",
  "all texts and objects", INF,
  ["asn1crypto/x509.py:IPAddress.set", "asn1crypto/_inet.py:inet_pton"])
p("C64", "Required fields stay filled",
  "Whatever is done to a loaded structure and to the objects inside it, a field that is neither optional nor defaulted has a value whenever the fields were parsed; deleting it or storing None is refused without effect; a structure that lacks it is never encoded.",
  "all schemas, octets and operation histories", INF,
  ["asn1crypto/core.py:Sequence._parse_children", "asn1crypto/core.py:Set._parse_children", "asn1crypto/core.py:Sequence.__delitem__", "asn1crypto/core.py:Sequence.__setitem__", "asn1crypto/core.py:Sequence.dump"])

p("C65", "Names are mapped as RFC 4518 says",
  "The map step of the string preparation removes exactly the characters that RFC 4518 section 2.2 maps to nothing, turns exactly those it maps to SPACE into a space and leaves every other character.",
  "all texts", INF, ["asn1crypto/x509.py:NameTypeAndValue._ldap_string_prep"])
p("C66", "hashable tells unequal Names apart",
  "Two Names with the same .hashable compare equal.",
  "all pairs of names", INF, ["asn1crypto/x509.py:Name.hashable", "asn1crypto/x509.py:RDNSequence.hashable", "asn1crypto/x509.py:RelativeDistinguishedName.hashable"])
p("C67", "Name comparison sees the current value",
  "The result of comparing two NameTypeAndValue objects depends only on their current types and values, whatever was compared or assigned before.",
  "all histories of comparisons and assignments", "All read/assign interleavings (caches).", ["asn1crypto/x509.py:NameTypeAndValue.prepped_value"])
p("C68", "Names are built in a fixed order and summarised completely",
  "Name.build gives one RDN for each entry of the dict, in the preferred order and whatever the order of the dict, and refuses unknown attributes; native maps every type to all its values in order; human_friendly shows every field once with all its values.",
  "all dicts and all names", INF, ["asn1crypto/x509.py:Name.build", "asn1crypto/x509.py:Name.native", "asn1crypto/x509.py:Name.human_friendly", "asn1crypto/x509.py:NameType.preferred_ordinal"])

p("C69", "The names a certificate is checked against",
  "valid_domains lists the DNS names of the subject alternative name extension, each once and in order; the common names of the subject that look like a domain are used exactly when the extension is absent.",
  "all extensions and subjects", INF, ["asn1crypto/x509.py:Certificate.valid_domains"])
p("C70", "Addresses are compared by their octets",
  "is_valid_domain_ip(address) is True exactly when the certificate lists the octets of the address, however the address is spelt, and never looks at domain names.",
  "all address texts and all certificates", INF, ["asn1crypto/x509.py:Certificate.is_valid_domain_ip", "asn1crypto/x509.py:Certificate.valid_ips"])

p("C71", "Every type bound to an identifier name is reachable",
  "Each name of an _oid_specs table of the library is the name of some identifier of the field it belongs to, so that the bound type is used when that identifier is read, and no name is bound twice.",
  "all _oid_specs tables of the library", "A table-wide invariant; tests check chosen rows.",
  ["asn1crypto/pkcs12.py:Attribute", "asn1crypto/x509.py", "asn1crypto/cms.py", "asn1crypto/algos.py"])

p("C72", "Encryption algorithm accessors describe the algorithm",
  "For every identifier of EncryptionAlgorithmId with its parameters, cipher, key length in octets, block size, mode, initialisation vector and key derivation are those the standards give; whatever has no such value raises ValueError.",
  "all identifiers, all parameters, nested schemes of any depth", INF,
  ["asn1crypto/algos.py:EncryptionAlgorithm.key_length", "asn1crypto/algos.py:EncryptionAlgorithm.encryption_cipher", "asn1crypto/algos.py:EncryptionAlgorithm.encryption_mode", "asn1crypto/algos.py:EncryptionAlgorithm.encryption_block_size", "asn1crypto/algos.py:EncryptionAlgorithm.encryption_iv", "asn1crypto/algos.py:EncryptionAlgorithm.kdf"])

p("C73", "Names stand for the numbers the standards assign",
  "Every name of an object identifier map is written as the octets of the arcs that its standard assigns, and read back from them; every name of an enumeration, version or named bit list stands for the number its standard assigns; no table has an entry that is not in the registry.",
  "all tables, all names, after any history of uses of the class", INF,
  ["asn1crypto/core.py:ObjectIdentifier.set", "asn1crypto/core.py:ObjectIdentifier.native", "asn1crypto/x509.py:KeyPurposeId", "asn1crypto/pkcs12.py:AttributeType", "asn1crypto/algos.py:DigestAlgorithmId", "asn1crypto/keys.py:NamedCurve"])

p("C74", "EC private keys have the length of the order of their curve",
  "Whatever the order in which the version, private key, parameters and public key of an ECPrivateKey are assigned, read and dumped, the private key is written in exactly as many octets as the order of the curve needs, with leading zeros, and private keys that do not fit are refused; a loaded key keeps its length.",
  "all integers, all curves, all sequences of operations", INF,
  ["asn1crypto/keys.py:ECPrivateKey.__setitem__", "asn1crypto/keys.py:ECPrivateKey.set_key_size", "asn1crypto/keys.py:ECPrivateKey._update_key_size", "asn1crypto/keys.py:ECDomainParameters.key_size", "asn1crypto/core.py:IntegerOctetString.set", "asn1crypto/core.py:IntegerOctetString.set_encoded_width", "asn1crypto/core.py:Sequence.dump"])
p("C75", "PrivateKeyInfo keeps the length of the EC key in it",
  "An ECPrivateKey that is put in a PrivateKeyInfo, by wrap or by assigning the fields, is written in the length of the curve of the algorithm.",
  "all EC keys made by any sequence of operations, all curves", INF,
  ["asn1crypto/keys.py:PrivateKeyInfo.wrap", "asn1crypto/keys.py:PrivateKeyInfo.__setitem__", "asn1crypto/core.py:ParsableOctetString.set", "asn1crypto/core.py:ParsableOctetString.dump"])
p("C76", "The key in PublicKeyInfo and PrivateKeyInfo is read with the type of its algorithm",
  "A loaded PublicKeyInfo or PrivateKeyInfo gives the key as the structure that the standards assign to its algorithm, whatever is read before and in whatever order; all reads agree, the dump is the loaded octets, and each algorithm the library names has a type.",
  "all octets, all algorithms, all sequences of reads", INF,
  ["asn1crypto/keys.py:PublicKeyInfo._public_key_spec", "asn1crypto/keys.py:PrivateKeyInfo._private_key_spec", "asn1crypto/core.py:Sequence._parse_children", "asn1crypto/core.py:Sequence._determine_spec", "asn1crypto/core.py:Sequence.__getitem__", "asn1crypto/core.py:Sequence.dump"])
p("C77", "bit_size, byte_size, hash_algo and curve describe the key",
  "The sizes of PublicKeyInfo and PrivateKeyInfo are the length in octets of the modulus, the prime or the field of the curve, the digest of a DSA key goes with the length of q, and the accessors that do not apply raise ValueError, whatever is read before.",
  "all keys, all sequences of reads", INF,
  ["asn1crypto/keys.py:PublicKeyInfo.bit_size", "asn1crypto/keys.py:PublicKeyInfo.byte_size", "asn1crypto/keys.py:PublicKeyInfo.hash_algo", "asn1crypto/keys.py:PublicKeyInfo.curve", "asn1crypto/keys.py:PrivateKeyInfo.bit_size", "asn1crypto/keys.py:PrivateKeyInfo.byte_size", "asn1crypto/keys.py:PrivateKeyInfo.hash_algo", "asn1crypto/keys.py:PrivateKeyInfo.curve", "asn1crypto/keys.py:DSAParams.q_byte_size"])
p("C78", "Algorithm identifiers get the parameters their algorithm needs",
  "When the algorithm of an algorithm identifier is assigned, the parameters become NULL for RSA keys and PKCS #1 v1.5 signatures and stay absent for DSA, ECDSA and the Edwards curves, in whatever order the fields are assigned.",
  "all classes with forced parameters, all histories of the class, all sequences of assignments", INF,
  ["asn1crypto/algos.py:_ForceNullParameters._parameters_spec", "asn1crypto/algos.py:_ForceNullParameters.__setitem__", "asn1crypto/keys.py:PublicKeyInfo.wrap", "asn1crypto/keys.py:PrivateKeyInfo.wrap", "asn1crypto/core.py:Sequence._make_value"])
p("C79", "DNS names are compared without regard to case",
  "Two DNSName objects are equal exactly if their names are the same but for the case of ASCII letters (RFC 5280 7.2), whether they were loaded or set and whatever was read and compared before; equality is an equivalence; names that fit no host name are refused when set and others are written as they are.",
  "all names, all sequences of uses", INF,
  ["asn1crypto/x509.py:DNSName.set", "asn1crypto/x509.py:DNSName.__eq__", "asn1crypto/core.py:AbstractString.__unicode__"])
p("C80", "E-mail addresses are compared by mailbox and host",
  "Two EmailAddress objects are equal exactly if the part before the last at sign is the same and the hosts are the same but for case (RFC 5280 7.5), whether they were loaded or set and whatever was read and compared before; addresses are written and read as they are, and comparing changes no object.",
  "all addresses, all sequences of uses", INF,
  ["asn1crypto/x509.py:EmailAddress.set", "asn1crypto/x509.py:EmailAddress.__unicode__", "asn1crypto/x509.py:EmailAddress.__eq__", "asn1crypto/x509.py:EmailAddress.contents"])
p("C81", "URIs keep their components and are compared after normalization",
  "iri_to_uri writes every component of an IRI as a text of the same meaning that is legal in a URI, uri_to_iri shows every component of a URI with the same meaning, IRIs without escapes come back, and two URI objects are equal exactly if scheme, user, path, query and fragment are the same and the hosts and ports are the same after normalization (RFC 5280 7.4), whatever was read and compared before.",
  "all URIs and IRIs, all sequences of uses", INF,
  ["asn1crypto/_iri.py:iri_to_uri", "asn1crypto/_iri.py:uri_to_iri", "asn1crypto/x509.py:URI.set", "asn1crypto/x509.py:URI.__eq__", "asn1crypto/x509.py:URI.__unicode__"])
p("C82", "General names are compared by kind and value",
  "Two GeneralName objects are equal exactly if they are of the same kind and their values are the same by the rules of RFC 5280 7.1 to 7.5, whatever was read and compared before; equality is an equivalence; names of different kinds are unequal.",
  "all general names, all sequences of uses", INF,
  ["asn1crypto/x509.py:GeneralName.__eq__", "asn1crypto/x509.py:IPAddress.__eq__", "asn1crypto/core.py:Primitive.__eq__"])
p("C83", "The URLs of certificates and CRLs are those the extensions name",
  "url is the first URI of a distribution point with one of four schemes, the lists of distribution points hold those with a URI, ocsp_urls and issuer_cert_urls hold the URIs of the right access method and scheme in their order, issuer_name is the first directory name; the answers do not depend on how often they are read.",
  "all extensions, all numbers of reads", INF,
  ["asn1crypto/x509.py:DistributionPoint.url", "asn1crypto/x509.py:Certificate.crl_distribution_points", "asn1crypto/x509.py:Certificate.delta_crl_distribution_points", "asn1crypto/x509.py:Certificate._get_http_crl_distribution_points", "asn1crypto/x509.py:Certificate.ocsp_urls", "asn1crypto/crl.py:CertificateList.issuer_cert_urls", "asn1crypto/crl.py:CertificateList.delta_crl_distribution_points", "asn1crypto/crl.py:RevokedCertificate.issuer_name"])
p("C84", "A certificate describes itself consistently",
  "key_identifier, authority_key_identifier, ca, max_path_length, self_issued, self_signed, issuer_serial and authority_issuer_serial say what the fields and extensions say, whatever is read before; self_signed is maybe exactly if subject and issuer are equal and the key identifiers do not differ; issuer_serial tells certificates apart and matches authority_issuer_serial exactly for the certificate that is named.",
  "all certificates, all sequences of reads", INF,
  ["asn1crypto/x509.py:Certificate.key_identifier", "asn1crypto/x509.py:Certificate.authority_key_identifier", "asn1crypto/x509.py:Certificate.issuer_serial", "asn1crypto/x509.py:Certificate.authority_issuer_serial", "asn1crypto/x509.py:Certificate.ca", "asn1crypto/x509.py:Certificate.max_path_length", "asn1crypto/x509.py:Certificate.self_issued", "asn1crypto/x509.py:Certificate.self_signed"])
p("C85", "The ordered dictionary keeps the order of its keys",
  "Under every history of assignments, deletions, pops, updates and clearings, the OrderedDict for old versions of Python answers as a list of items in the order in which their keys were added: iteration, reversed iteration, items, length, lookup, copies, rebuilding from the items and comparison all agree with that list, and iteration ends.",
  "all types of keys and values, all histories of operations", INF,
  ["asn1crypto/_ordereddict.py:OrderedDict.__setitem__", "asn1crypto/_ordereddict.py:OrderedDict.__delitem__", "asn1crypto/_ordereddict.py:OrderedDict.__iter__", "asn1crypto/_ordereddict.py:OrderedDict.__reversed__", "asn1crypto/_ordereddict.py:OrderedDict.popitem", "asn1crypto/_ordereddict.py:OrderedDict.clear", "asn1crypto/_ordereddict.py:OrderedDict.__eq__", "asn1crypto/_ordereddict.py:OrderedDict.copy"])
p("C86", "Every BER encoding of a structure loads as its value",
  "A sequence, list, set of or choice loads from each of its BER encodings (any form of length, strings in segments, default values written out, elements of a set in any order, superfluous octets) as the value the encoding stands for; the object then answers every operation as that value does. An encoding stands for one value, and the DER encoding is one of the BER encodings.",
  "all schemas, all values, all BER encodings, all later histories", INF,
  ["asn1crypto/core.py:_build", "asn1crypto/core.py:Sequence._parse_children", "asn1crypto/core.py:SequenceOf._parse_children", "asn1crypto/core.py:Choice.parse", "asn1crypto/core.py:Constructable._merge_chunks"])
p("C87", "Strings that hold an encoded value keep their octets",
  "A ParsableOctetString or ParsableOctetBitString gives the octets it was loaded from, whole or in segments; looking at it (parse, parsed, native, bytes, dump) changes neither the octets nor what parsing them gives, nor, for strings that are not in segments, what dump() writes; set() makes it the new string; a forced dump writes the parsed value as DER inside the string; building it from an object gives that object's encoding; copies agree with the original.",
  "all strings, all classes of values inside, all histories of uses", INF,
  ["asn1crypto/core.py:ParsableOctetString.set", "asn1crypto/core.py:ParsableOctetString.parse", "asn1crypto/core.py:ParsableOctetString.native", "asn1crypto/core.py:ParsableOctetString.dump", "asn1crypto/core.py:ParsableOctetString._copy", "asn1crypto/core.py:ParsableOctetBitString.set"])
p("C88", "Concatenated values are taken apart and put together again",
  "A Concat loads exactly the octets that are encodings for its classes one after the other, up to where the octets end; each child stands for its value and goes through what is done at its position and nothing else; dump is the dumps of the children one after the other, and the forced dump writes DER; building from objects keeps them, and refuses too many objects and things that are no objects.",
  "all lists of classes, all octets, all histories", INF,
  ["asn1crypto/core.py:Concat.load", "asn1crypto/core.py:Concat.__init__", "asn1crypto/core.py:Concat.dump", "asn1crypto/core.py:Concat.__setitem__", "asn1crypto/core.py:Concat.__getitem__", "asn1crypto/core.py:Concat._copy"])
p("C89", "Any stands for the value inside it",
  "An Any loaded from an encoding of a value, under explicit tags or not, and parsed with the class of the value stands for that value: native and dump agree with what is done to the object inside. Without explicit tags it can be looked at and parsed with several classes, each time as if the octets were loaded with that class, and the dict passed stays as it is. An Any made from an object stands for the object, and copies of it dump the same octets.",
  "all classes, values, BER encodings, explicit tags, histories", INF,
  ["asn1crypto/core.py:Any.__init__", "asn1crypto/core.py:Any.parse", "asn1crypto/core.py:Any.native", "asn1crypto/core.py:Any.dump", "asn1crypto/core.py:Any._copy", "asn1crypto/core.py:_build"])
p("C90", "An object identifier selects the class of a field",
  "A sequence with _oid_pair and _oid_specs, whose object identifier has an entry in the table, behaves as the sequence whose field has the class of that entry: made from a dict or loaded from DER or BER, and through any program that does not change the object identifier, what can be done is done, and natives, dumps and lengths anywhere inside agree with the value the program leads to.",
  "all classes with such a pair, all tables, values, encodings, histories", INF,
  ["asn1crypto/core.py:Sequence._determine_spec", "asn1crypto/core.py:Sequence._setup", "asn1crypto/core.py:Sequence._parse_children", "asn1crypto/core.py:Sequence.__setitem__", "asn1crypto/core.py:Sequence._make_value", "asn1crypto/core.py:Sequence.__init__"])
p("C91", "A pickled object comes back with its value",
  "An object of a class of C24 without tags of its own, made from a value or loaded and worked with in any way after which dump() can be relied upon, is pickled as the encoding of the value it then has, and what comes back is an object for that value: natives, dumps, lengths and further changes anywhere inside agree with it.",
  "all schemas, values, encodings, histories before and after", INF,
  ["asn1crypto/core.py:Asn1Value.__reduce__", "asn1crypto/core.py:unpickle_helper"])
p("C92", "Values loaded without a class are read as the values they encode",
  "load() without a class accepts exactly the encodings whose tag number is one of 1 to 13 and 16 to 30, and raises ValueError for anything else. For the DER encoding of a tree of sequences and values of universal types, natives, dumps and lengths along every path of indices, after any reading, are those of the part of the value found there, the dump of the whole being the octets loaded, and a path that leads nowhere is an error. For BER encodings natives and lengths are.",
  "all octet strings; all trees of sequences and simple values, paths, histories of reading", INF,
  ["asn1crypto/core.py:load", "asn1crypto/core.py:_build", "asn1crypto/core.py:_UNIVERSAL_SPECS", "asn1crypto/core.py:Sequence._parse_children", "asn1crypto/core.py:Sequence.native"])
p("C93", "The structures have the fields, tags, types, presence and defaults of the standards",
  "Every structured class of the library that stands for a type of RFC 5280, 2986, 3161, 3274, 4998, 5035, 5083, 5084, 5208, 5544, 5652, 5755, 5915, 5940, 6211, 6960, 7292, 7633, 8017, 8018, 8551, X.509, TCG or ISO 32000 has its components in their order, with their types, explicit or implicit tags as the module's tagging rules give them, optionality and default values, except 21 listed classes that do not. The type bound to each identifier is the one the standard binds to it, except for five listed identifiers.",
  "all 285 classes that stand for a type of a standard, all 213 bindings of identifiers", INF,
  ["asn1crypto/x509.py:TbsCertificate._fields", "asn1crypto/cms.py:SignedData._fields", "asn1crypto/core.py:Sequence._setup", "asn1crypto/core.py:Choice._setup", "asn1crypto/core.py:_build_id_tuple"])
p("C94", "88 structures of the library round-trip as their own fields say",
  "For each of 88 named structured classes of the library (keys, algorithm parameters, extension values, times, attribute values, time-stamping and CMS parts), read from its _fields, _alternatives, _child_spec, _map and tag: every value the class stands for is written in DER, loading that gives an object with the same value, native and bytes; every DER and BER encoding of a value is loaded as the only value it stands for; data after a DER encoding is refused.",
  "all classes in the list, all values and all encodings (up to 2^1008 bytes), both ways the platform writes years", INF,
  ["asn1crypto/x509.py:BasicConstraints", "asn1crypto/keys.py:RSAPrivateKey", "asn1crypto/tsp.py:Accuracy", "asn1crypto/core.py:Sequence", "asn1crypto/core.py:Choice"])
p("C95", "Certificates, CRLs, CMS, OCSP and the other structures are read as their encodings say",
  "For each of some 430 classes of the library, among them Certificate, CertificateList, ContentInfo, OCSPResponse, PrivateKeyInfo, TimeStampResp and Pfx: octets that are a BER encoding standing for a value under the class are loaded, and .native is that value. This includes fields whose class is chosen while reading, by an object identifier or the version in another field, values encoded inside octet and bit strings, and the natives of names. Where a standard binds a type to an identifier, the field is read with a class of that type; keys are read as the standards on their algorithms say.",
  "all classes in the table, all encodings (any nesting of types, up to 2^1008 bytes), strict or not, any bytes after", INF,
  ["asn1crypto/core.py:_build", "asn1crypto/core.py:Sequence._determine_spec", "asn1crypto/core.py:Sequence._parse_children", "asn1crypto/x509.py:Name.native", "asn1crypto/x509.py:Extension", "asn1crypto/cms.py:CertificateChoices.validate", "asn1crypto/keys.py:PublicKeyInfo", "asn1crypto/algos.py:_ForceNullParameters"])
p("C96", "Forced encoding turns BER into DER for the structures of the library",
  "For each class of the table of C95: if octets are a BER encoding of a value under the class, load followed by dump(force=True) writes the DER encoding of that value: definite and shortest lengths, strings in one piece, TRUE as 255, defaults left out, sets in order, identifiers in the form listed for their name, also inside octet and bit strings and in fields whose class is chosen while reading. The defaults left out are those of the standards, for all fields but two. A name with several identifiers is written with the one in _reverse_map.",
  "all classes in the table, all encodings (any nesting of types, up to 2^1008 bytes), strict or not, any bytes after", INF,
  ["asn1crypto/core.py:Sequence._set_contents", "asn1crypto/core.py:Sequence.dump", "asn1crypto/core.py:SetOf._set_contents", "asn1crypto/core.py:Choice.dump", "asn1crypto/core.py:Primitive.dump", "asn1crypto/core.py:ParsableOctetString.dump", "asn1crypto/algos.py:SignedDigestAlgorithmId", "asn1crypto/algos.py:_ForceNullParameters"])
p("C97", "Structures of the library built from Python values are written in DER and read back",
  "For each class of the table of C95 but three: if a Python value (dicts, lists, tuples and objects, nested) is one the class can be made of, dump() of what the constructor makes writes the DER encoding of the value: fields in the order of the class, the class of a field chosen by another one, octet and bit strings around their value, defaults left out, sets in order, NULL parameters filled in for the algorithms that need them. load reads it as the value, and dump(force=True) then writes the same octets. The order of the entries of a dict does not matter.",
  "all classes in the table but ECPrivateKey, PrivateKeyInfo and AnyAlgorithmIdentifier, all values (any nesting, up to 2^1008 bytes encoded)", INF,
  ["asn1crypto/core.py:Sequence.__init__", "asn1crypto/core.py:Sequence.__setitem__", "asn1crypto/core.py:Sequence._make_value", "asn1crypto/core.py:Sequence._set_contents", "asn1crypto/core.py:SequenceOf.__init__", "asn1crypto/core.py:SequenceOf._make_value", "asn1crypto/core.py:SetOf._set_contents", "asn1crypto/core.py:Choice.__init__", "asn1crypto/algos.py:_ForceNullParameters.__setitem__", "asn1crypto/ocsp.py:StatusGood.set"])
p("C98", "Times of year 0 are shown, changed and converted like other times",
  "For every time of year 0 (extended_datetime, extended_date): isoformat and str write the form of ISO 8601, from which date, time and offset can be read, and no two times have one text; strftime gives for every format what C's strftime would give for year 0; replace changes the fields given and no others and raises ValueError exactly when there is no such time; astimezone keeps the instant and raises ValueError exactly when the clock of the zone shows a year before year 0; timestamp is the number of seconds since 1970; create_timezone gives the zone asked for after any history, and the zones of Python 2 are those of whole minutes, named by their offset.",
  "all times of year 0 with any fixed offset, all formats and locales, all changes, all offsets and histories of offsets", INF,
  ["asn1crypto/util.py:extended_datetime.isoformat", "asn1crypto/util.py:extended_datetime.strftime", "asn1crypto/util.py:extended_datetime.replace", "asn1crypto/util.py:extended_datetime.astimezone", "asn1crypto/util.py:extended_datetime.timestamp", "asn1crypto/util.py:extended_date", "asn1crypto/util.py:_format_offset", "asn1crypto/util.py:create_timezone", "asn1crypto/util.py:timezone"])
p("C99", "Lists of the library behave as Python containers",
  "For every SequenceOf and SetOf object and every history of len, [], slices, iteration and membership tests: reading changes neither values, octets nor objects handed out; the same position gives the same object however often and after whatever reads it is asked for, and different positions give different objects; iteration gives all children in order and fails with the first that cannot be made; 'x in l' is true exactly when a child equal to x is found before one that raises; append, []= and del change the position named and no other and put the object given itself there unless its tags must change; objects that compare equal never have different hashes.",
  "all lists, contents, child classes and comparisons, all histories of reads, all indexes, negative ones too; all list classes of the library", INF,
  ["asn1crypto/core.py:SequenceOf.__len__", "asn1crypto/core.py:SequenceOf.__getitem__", "asn1crypto/core.py:SequenceOf.__iter__", "asn1crypto/core.py:SequenceOf.__contains__", "asn1crypto/core.py:SequenceOf.append", "asn1crypto/core.py:SequenceOf.__setitem__", "asn1crypto/core.py:SequenceOf.__delitem__", "asn1crypto/core.py:SequenceOf._lazy_child", "asn1crypto/core.py:Primitive.__eq__"])
p("C100", "Reading any octets raises only exceptions the definitions give a cause for",
  "When arbitrary octets are loaded with any class of the library and its native value is read, any exception other than ValueError and UnicodeError has a cause in the definition of the class or of a class reached from it through fields, children, alternatives or classes chosen by name: a bit string (IndexError), an enumeration (KeyError, or TypeError without names), a GeneralizedTime (OverflowError), a class without a native value (AttributeError), a field chosen by name without a default (KeyError), values read by tag alone (those but KeyError). From this, 328 of the 430 classes never raise KeyError, 398 raise only the exceptions named, and 110 raise ValueError only.",
  "all octets, strict or not, all recursion limits, all 430 classes of the table", INF,
  ["asn1crypto/core.py:Sequence._parse_children", "asn1crypto/core.py:Sequence.native", "asn1crypto/core.py:SequenceOf.native", "asn1crypto/core.py:Choice.native", "asn1crypto/core.py:Enumerated.native", "asn1crypto/core.py:BitString._as_chunk", "asn1crypto/core.py:GeneralizedTime._date_by_len", "asn1crypto/cms.py:CertificateChoices.validate", "asn1crypto/core.py:_build"])
p("C101", "All ways to write the tags of a constructor mean the same",
  "For the arguments explicit, implicit, tag_type, class_, tag and no_explicit of constructors: a number alone means that number in the class given or in context; the old style tag_type with tag means the pair of the new style; what is given in the new style comes first; class names and class numbers are interchangeable and are the four of X.690; class_ and tag alone replace those of the class; with numbers the result is the tagging the other properties are stated with; only ValueError, TypeError and KeyError are raised, KeyError only for an unknown class in explicit that is no number. The conversion of old style parameters of fields gives the new style with the same meaning, once and for all, and leaves parameters without a tag unchanged.",
  "all classes, all arguments of the kinds modelled, all parameter dicts", INF,
  ["asn1crypto/core.py:Asn1Value.__init__", "asn1crypto/core.py:_tag_type_to_explicit_implicit", "asn1crypto/core.py:CLASS_NAME_TO_NUM_MAP"])
p("C102", "Every revocation reason that can be read has a text of its own",
  "Whatever octets are loaded as a CRLReason, if they have a native value it is the name of one of the ten reasons of RFC 5280 and human_friendly gives the text of that reason; different reasons have different texts, and nothing else has a text.",
  "all octets, strict or not; all native values", INF,
  ["asn1crypto/crl.py:CRLReason.human_friendly", "asn1crypto/crl.py:CRLReason", "asn1crypto/core.py:Enumerated.native"])

with open(os.path.join(os.path.dirname(os.path.dirname(os.path.abspath(__file__))), "properties.jsonl"), "w") as f:
    for o in P:
        f.write(json.dumps(o) + "\n")
print(len(P))
