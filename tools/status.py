s('C01', 'proved', "Python 3 branch of util: full statement. The Python 2 branch is refuted (-65535).")
s('C02', 'proved', "Python 3 branch of util: full statement; Python 2 agrees on unsigned values and is refuted for negative fixed-width ones.")
s('C03', 'proved', "for contents shorter than 2^1008 octets, the limit of BER length octets")
s('C04', 'proved', "full statement")
s('C05', 'proved', "full statement")
s('C06', 'proved', "full statement; acceptance is characterised exactly by an X.690 grammar and the nesting limit is tight")
s('C07', 'proved', "for contents shorter than 2^1008 octets")
s('C08', 'proved', "full statement")
s('C09', 'proved', "full statement, for emitted values and for any accepted BER encodings")
s('C11', 'proved', "full statement: exact base-128 octets, round trip and injectivity")
s('C12', 'partial', "REFUTED: '1' and '1.2.-3' are accepted. Proved: illegal first/second arcs and non-numeric arcs raise ValueError, and nothing else is raised.")
s('C13', 'partial', "REFUTED: padded and truncated sub-identifiers collide. Proved: injective and re-encodable on well-formed contents.")
s('C14', 'proved', "full statement, bits given as booleans; decoding of arbitrary contents characterised")
s('C15', 'proved', "full statement for every map with distinct non-negative positions")
s('C16', 'proved', "content octets level; the object-level histories are C45")
s('C18', 'proved', "Python's latin1/ascii/UTF codecs are modelled after the Unicode standard, teletex from the table in the source")
s('C51', 'partial', "REFUTED: a name outside the map is silently dropped from the encoding.")
s('C19', 'proved', "full statement; the datetime module is modelled by a proleptic Gregorian calendar proved to follow the day/month/year rules")
s('C20', 'proved', "full statement for both readings of strftime('%Y'); years 1..999 are refuted where the C library does not pad")
s('C43', 'partial', "order, equality, difference and a+d-a proved in full; (a+d)-d = a refuted when the sum leaves year 0, and sums in the years 8000..9999 are refused")
s('C53', 'partial', "REFUTED: a trailing line feed is accepted")
s('C10', 'proved', "full statement, for every tagging; encodings shorter than 2^1008 octets")
s('C17', 'proved', "full statement for every constructable class without explicit tags of its own, nesting up to the parser's limit; an empty OctetBitString (no segments) raises IndexError, see C52")
s('C21', 'partial', "REFUTED for an implicit tag on a class that has its own explicit tags, and for an explicit and an implicit tag given together (the implicit one is ignored). Proved for every other combination, and rejection of every different tagging.")
s('C22', 'partial', "REFUTED for definite lengths whose last octet is 0x80, also below a choice, where the result cannot be loaded again. Proved otherwise: for primitives and structures from any accepted octets exactly when each explicit wrapper holds one value, for choices from any BER encoding.")
s('C31', 'partial', "REFUTED: objects of one class compare equal although their values differ. Proved: equivalence relation, decided by contents and class tag, and by the value for objects assigned by the program.")
s('C44', 'partial', "REFUTED for character strings, named bit strings, fixed-width integers and object identifiers. Proved for every other class.")
s('C45', 'partial', "REFUTED for .dotted and Null. Proved for native and dump after any history, from any reachable state.")
s('C46', 'partial', "REFUTED: data after the value is ignored. Proved: the wrapper must start with a value, and dump reproduces the input exactly when there is nothing else.")
s('C52', 'partial', "REFUTED for empty bit strings, unknown enumerated values, Real and other raw classes, GeneralizedTime rounding. Proved for the other classes.")
s('C54', 'proved', "full statement")
s('C55', 'proved', "full statement")
s('C57', 'proved', "full statement")
s('C58', 'proved', "full statement")
s('C23', 'partial', "REFUTED for OctetBitString, IntegerBitString, named bits without a name, Null, some times, and sequences with elements the schema does not know. Proved for every other primitive class and every value in the domain of the class, and for structures from any BER encoding, after any reads.")
s('C24', 'partial', "REFUTED only for the empty dict given for a sequence whose fields are all optional. Proved for every other value and every schema of primitives, Sequence, SequenceOf, SetOf, Choice and tags (a choice under at most one explicit tag, optional fields without class-level explicit tags); Set is C48.")
s('C25', 'partial', "REFUTED when the default is itself a sequence with optional fields. Proved otherwise.")
s('C26', 'proved', "full statement, non-negative indices; constructed and DER-loaded SequenceOf, and constructed SetOf")
s('C27', 'proved', "full statement")
s('C28', 'partial', "REFUTED for a choice under two explicit tags and for the length of the explicit tag after a change. Proved otherwise.")
s('C29', 'partial', "REFUTED for fields with structured defaults that are absent, and for dump(force=True) of what a choice holds. Proved otherwise: primitives; structures from DER after all reads; structures from any accepted octets whose headers do not end in 0x80, whether the reads succeed or not, for dump(force=True) of inner parts too.")
s('C30', 'partial', "REFUTED for dump() without force (dump of a part hides its change, set() of a primitive and changes below a choice go unnoticed). Proved for dump(force=True) after any history, and for dump() as long as none of these happened.")
s('C47', 'partial', "REFUTED: Choice refuses indefinite lengths. Proved: structures load from all BER encodings, in which every other length may be indefinite.")
s('C48', 'partial', "REFUTED: absent members, forced dumps of loaded sets, a length ending in 0x80, and assigning to a loaded set before reading it raise exceptions; members of different tag classes or with explicit tags are sorted wrongly. Proved for sets whose members are not choices, where every member has a value and sorting by the number of the inner tag is right: made from a dict, loaded from DER or BER with the members in any order, and through any program (after reading once, if loaded), natives, dumps and lengths anywhere inside agree with the value, and the encoding is the DER one, which is unique; unknown members are refused.")
s('C56', 'partial', "REFUTED for the width of an IntegerOctetString, which the copy forgets, and for copies of structures whose native was read. Proved for primitives without a width after any history, and for structures after any history whose contents can be relied upon (CopySpec.copies_from): the copy and the retagged copy then behave as the value the history led to, their natives provided that the native of the original was never read. Not covered: copies of an object whose own contents are stale, and of Set.")
s('C59', 'partial', "REFUTED after an exception. Proved for structures loaded from any BER encoding.")
s('C60', 'proved', "full statement for encodings that are not segmented")
s('C32', 'proved', "full statement, plus the shape of the armored text (lines of 64 characters)")
s('C33', 'proved', "full statement, plus soundness: every block returned stands in the text between its BEGIN line and a line of dashes")
s('C61', 'partial', "REFUTED: a truncated second block is dropped, a missing last line swallows the next block, characters outside base64 are skipped, armor accepts labels unarmor cannot read. Proved: a single block cut off anywhere before its last line is refused.")
s('C62', 'proved', "full statement")
s('C34', 'partial', "proved for every address and prefix length on any platform whose inet_pton reads what its inet_ntop writes. REFUTED for masks that are not a run of ones, and with the functions of _inet.py.")
s('C35', 'partial', "proved: IPv4, injectivity, the text form of RFC 5952, and reading back exactly the texts that neither start nor end in '::'. REFUTED: '::1', '2001:db8::' are refused.")
s('C63', 'partial', "REFUTED: struct.error for IPv6 texts, the refused text stays visible as native, lenient integer forms are accepted. Proved: the contents are kept, IPv4 errors are ValueError.")
s('C64', 'proved', "The invariant is about the loaded object itself; objects a program puts into it may lack required fields, they are refused by dump. Storing None in a required Null field is storing its value.")
s('C39', 'partial', "proved for whatever the floating point logarithm returns: accepted pairs come back, also after dump and load; other first octets are refused. REFUTED: zero, (1, 1) and powers of 256 are refused, the width is that of the point and not of the field, points with an even number of octets are accepted.")
s('C40', 'proved', "for signatures constructed, loaded from DER and converted")
s('C36', 'partial', "proved for every version of the Unicode tables: symmetric, transitive, reflexive on names that can be prepared, equal names without booleans have equal hashable, order within an RDN without repeated types, case and spaces. REFUTED: comparison raises for values that cannot be prepared; INTEGER 1 equals BOOLEAN TRUE with another hashable; the order of attributes of one type matters.")
s('C37', 'partial', "proved, both ways, when no RDN of one of the names repeats a type. REFUTED: of several values of one type only the last is compared.")
s('C65', 'partial', "proved for texts without U+FE00 to U+FEFE and U+FF00. REFUTED: the range U+FE0F to U+FF00 is removed, Arabic presentation forms included, and the variation selectors U+FE00 to U+FE0E stay.")
s('C66', 'partial', "proved for text values, RDNs that are not empty and repeat no type. REFUTED: byte strings may hold the separators; repeated attributes and empty RDNs leave no trace.")
s('C67', 'partial', "proved for objects not compared before. REFUTED: the prepared value is kept when a new value is assigned.")
s('C68', 'partial', "proved: one RDN per entry in the preferred order, unknown attributes refused, native and human_friendly complete. REFUTED: a dict naming one type by word and by OID gives a name that depends on the order of the dict.")
s('C38', 'partial', "proved for every name and certificate: the labels after the first are equal, and a star stands once, in the first label, outside A-labels; with listed names of letters, digits, hyphens and underscores, and hosts without a line feed, a host matches exactly when RFC 6125 says so. REFUTED: other characters of the first listed label are read as a regular expression; a line feed at the end of the host's first label is ignored; a listed name that cannot be encoded makes every check raise.")
s('C69', 'partial', "proved for the extension and for common names without a final line feed. REFUTED: an empty extension counts as absent; a common name may end in a line feed.")
s('C70', 'partial', "proved for certificates that list addresses of 4 or 16 octets, on platforms that write dots only in IPv4 addresses. REFUTED: a listed IPv4-mapped address, a network or an entry of another size makes the check raise, as does a dotted text that is no address.")
s('C49', 'partial', "proved: quoting keeps octets and separators of texts without escapes and of texts whose escapes are neither the percent sign nor null; the result holds only characters legal in that part, for every text; unquoting keeps octets and the separators of paths and queries; quoting then unquoting a text without escapes gives it back; a URI part shown and turned back means the same. REFUTED outside these limits: %2541 becomes %41 and then A; a stray percent sign takes in the digits of the next escape; a null beside an escape raises IndexError; U+001A in a path becomes a slash; escaped reserved characters other than / & = become literal; a colon in a user name comes back as %3a.")
s('C41', 'partial', "proved for all user maps in which no name is a key and no name occurs twice, and for every OID and number map of the library, also with the entries that pdf and tsp add when they are imported first; with aliases the last key is written; register keeps the maps consistent; every named curve has a size. The OID that AnyAlgorithmId reads is proved only for reading (C41_any_algorithm_reads_partial). REFUTED: AnyAlgorithmId can never be set (TypeError); entries added after first use can be read but not written; importing pdf renames 1.2.840.113583.1.1.5; a subclass with its own map writes by the map of its parent; a name that is also a key; unmap returns texts that are no OIDs.")
s('C71', 'partial', "proved for every table but one. REFUTED: microsoft_csp_name of pkcs12.Attribute is the name of no identifier.")
s('C42', 'partial', "proved for every registered identifier against a list written from the standards, and for all unknown identifiers. REFUTED for RSASSA-PSS only: without parameters the digest raises TypeError, and its digest may be one the documentation does not list.")
s('C72', 'partial', "proved against lists written from the standards: AES, DES, triple DES, PBES1, PKCS#12, RC2 with a version below 256 bits, RC5, PBES2 around any of them with PBKDF2; unknown identifiers raise ValueError. REFUTED: RC2 key lengths from 256 bits on and by default, KeyError for RC4 and RSAES, RC4 in CBC mode, a digest called wrap, TypeError for the salt of plain ciphers, AttributeError for the salt of scrypt, no vector for CFB and CCM.")
s('C50', 'partial', "proved for all seven classes and all lists, after any number of reads: critical set exact and without repetition, last value of each identifier, and a first error is raised by every read. REFUTED when the extensions are replaced or the returned set is changed after a read, and for OCSP responses without response bytes, whose accessors raise TypeError.")
s('C73', 'partial', "proved for all tables but five entries against a registry written from the standards. REFUTED: three Apple policies are entered under 1.2.840.113625 instead of Apple's 1.2.840.113635; Microsoft's identifier of the provider name is called microsoft_local_machine_keyset.")
s('C74', 'partial', "proved for all named curves, for all sequences of assignments by name, dumps and resizes of a new key and of a loaded key that is given its parameters, and which private keys are refused. and the size of explicit parameters whose order is away from powers of two. REFUTED: the size of explicit parameters is computed from the order rounded to 53 bits; a second, longer key is refused; a loaded key or a copy loses its length when changed or dumped anew; assignment by index skips the sizing; set_key_size after a dump is not dumped; a refused key stays in the object.")
s('C75', 'partial', "proved for wrap, for dump(force=True) and for keys that had the length before. REFUTED: the octet string is built before the key is resized, so dump() writes the short key, also when the curve of the algorithm is changed later.")
s('C76', 'partial', "proved for every algorithm the library names, for all sequences of reads, given how the parts are built; reads agree whenever the failure is a ValueError or TypeError. REFUTED: with an algorithm the library has no name for the first access raises KeyError, later ones return the algorithm and raise IndexError, and even the plain dump fails then; parts after the last field are accepted and lost.")
s('C77', 'partial', "proved, for a logarithm that is accurate away from powers of two, for moduli and primes away from powers of two and for uncompressed points, and for all other accessors. REFUTED: the logarithm is taken of a number rounded to 53 bits; the size of an EC private key depends on the secret number; compressed points give half the size; other algorithms raise UnboundLocalError; DSA keys with inherited parameters raise TypeError; the sizes are stale after an assignment.")
s('C78', 'partial', "proved for the six classes that have names, after all histories of the class, for assignment by name, and that by-name histories never lose the parameters. REFUTED: signatures with MD2, MD5 and SHA-1 get no NULL; parameters stay when the algorithm changes; assignment by index and None bypass it; parameters before the algorithm raise AttributeError; wrap with rsassa_pss always raises TypeError.")
s('C79', 'partial', "proved for ASCII names without A-labels; equivalence for all names. REFUTED: the prefix of A-labels is seen in small letters only, so XN--... and xn--... are unequal; a name that was set is compared as given, so objects with the same octets may be unequal.")
s('C80', 'partial', "proved for ASCII addresses with a host without A-labels; equivalence for all. REFUTED: addresses that can be read but not compared (UnicodeError); the cache is never kept, so each comparison writes the object anew and may change its octets; a new object raises AttributeError and TypeError.")
s('C81', 'partial', "proved for URIs with a scheme in small letters without +, an authority without brackets, non-empty user names and passwords and, for comparison, parts without escapes. REFUTED: escaped delimiters become delimiters, so URIs with different hosts are equal; brackets of IPv6 addresses are lost and the URI cannot be compared (ValueError); ldap:///... loses its slashes; a + in the scheme is escaped; passwords of an empty user are lost; empty queries are lost.")
s('C82', 'partial', "proved for the values for which C37 and C79 to C81 are proved, and for all addresses and identifiers; equivalence for all values. REFUTED: other_name, x400_address and edi_party_name raise ValueError even against names of another kind.")
s('C83', 'partial', "proved, for a lower() that works letter by letter, for full names whose URIs can be read and for points with a name. REFUTED: url, issuer_cert_urls, issuer_name and the delta points of a CRL keep an answer before they read, so after an exception they answer None or a part of the list; points with two URIs are listed twice, and with URIs of any scheme.")
s('C84', 'partial', "proved for all histories of reads, self_signed unless it raised, and for key identifiers that are not empty. REFUTED: an empty key identifier counts as none; self_signed answers no after it raised; authority_issuer_serial raises AttributeError if the name is not the first and ends in None without a serial number; ca is None without basic constraints.")
s('C85', 'proved', "proved for all histories; dictionaries are not changed while they are iterated.")
s('C86', 'partial', "proved for the schemas and values of C24; choices that directly hold an indefinite length, segmented strings of definite total length and segments in classes with explicit tags are not read by the library (C47), Null is required in DER.")
s('C87', 'partial', "proved for all histories; set() after the string was parsed is refuted, and proved for strings that were not parsed; parsing without a spec is an arbitrary function; spec_params are explicit and implicit tags only; strings in segments have no explicit tag.")
s('C88', 'partial', "proved for all classes, octets and histories in which no dump raises; octets that end before the last class load as an object that cannot be dumped (refuted), and so can objects made from too few values.")
s('C89', 'partial', "proved for all histories; parsing again under an explicit tag, explicit tags in the dict passed, copies before parsing and tags of an Any made from an object are refuted; parsing without a spec is an arbitrary function.")
s('C90', 'partial', "proved for all histories that leave the object identifier alone, for tables of classes of C24; missing: identifiers without an entry (an Any as a field), tables of classes that themselves have such a pair, _spec_callbacks. Assigning the identifier afterwards is refuted.")
s('C91', 'partial', "proved for objects without tags given to the object; with such tags the class cannot read what was pickled (refuted), and changes that dump() does not see are lost (refuted). Missing: Set, Any, classes selected by an identifier.")
s('C92', 'partial', "reading is proved; of sets, EmbeddedPdv, Enumerated, Real, RelativeOid and strings in segments of definite total length it is refuted. Missing: changes to primitives found inside, copies, Python's recursion limit.")
s('C93', 'partial', "decided for every class and binding; 21 classes and five bindings differ and are refuted. The standards are written down by hand in ShapeSpec.v. Not compared: sizes and ranges, the values named numbers stand for, components whose type a method chooses, 49 classes without a standard or compared as bindings.")
s('C94', 'proved', "the classes the container model covers: no Any, ParsableOctetString, Set, method-chosen types or redefined methods. EDIPartyName cannot be used at all and CcmParams refuses the default length; classes with NotReallyTeletexString, whose text can come back changed, are left out.")
s('C95', 'proved', "only natives, right after loading; the text of DNSName, URI, EmailAddress and IPAddress is a parameter; Set, Concat, choices with a tag of their own and three ambiguous classes are left out. Five identifiers have a type other than the standard's (C93). Keys of unknown algorithms and DER attribute certificates of version 1 in CertificateChoices are refused.")
s('C96', 'proved', "dump(force=True) right after loading; what DNSName, URI, EmailAddress and IPAddress write is a parameter; values in an Any, NULL and the class Sequence itself have to be in DER already (refuted otherwise). Two defaults differ from the standards; aliases of identifiers are replaced; AnyAlgorithmIdentifier cannot be written; elements after the last field are dropped.")
s('C97', 'proved', "What DNSName, URI, EmailAddress and IPAddress write for a text is a parameter; an object inside a value is taken to be made of a Python value with the tags of its place, objects given for an Any are left out, as are old names of fields. A set has its elements in some order and a value that is a default may be shown as the default. An empty dict, an AnyAlgorithmId and the native of a Choice cannot be given (refuted).")
s('C98', 'partial', "isoformat, str and date proved for offsets of whole minutes, which all times read by the library have; strftime for the directives of C and Python whose form is not left to the locale, but for the ISO year of 1 and 2 January; replace, astimezone, zones in full; timestamp exact for whole seconds, otherwise within four microseconds and in order. REFUTED: offsets with seconds are rounded, so that different times have one text; %G on 1 January gives 1999; a time that astimezone brought to year 1 cannot be brought back; times a microsecond apart may have one time stamp. Naive times are left out of astimezone and timestamp, where Python asks the system for its zone.")
s('C99', 'proved', "For all lists with any class of children, any comparison and any history of reads; the comparison the classes of the library get is computed from their definitions. REFUTED: 80 of the 101 list classes have children without ==, so that an object with the same octets is not in the list; a general name of a kind without == makes 'in' raise; slices give parser tuples.")
s('C100', 'proved', "For all octets, strict or not, and every class of the table. The texts of names are a parameter assumed to raise ValueError or UnicodeError only (texts_fine); OutOfFuel stands for the recursion limit of Python; for CertificateChoices, whose validate() looks at what it is given, the cause allows any exception. REFUTED: that it is ValueError alone, for sequences (elements after the last field are read by their tags) and for enumerations.")
s('C101', 'proved', "For all arguments: numbers, texts and other values as classes, numbers and other values as tags, pairs and tuples of pairs. Booleans, other sequences and classes that cannot be hashed are not modelled. REFUTED: an unknown class name in explicit raises KeyError instead of the ValueError documented; implicit is dropped when explicit is given too; fields drop a misspelt tag_type and prefer the old style where constructors prefer the new one.")
s('C102', 'proved', "For all octets and all native values; the names and texts are stated again from RFC 5280 and the source. The text of privilege_withdrawn is misspelt in the source (withdrawl).")
