# Formal model of asn1crypto

Source under study: `/repo` (wbond/asn1crypto, Python), read as text only.
Prover: Coq 8.16.1. Build: `cd rocq && coq_makefile -f _CoqProject -o Makefile && make -j4`.

## Layout

| layer | files | content |
|---|---|---|
| base | `Base.v` | bytes, exceptions as values (`res`), slices |
| model | `*Model.v` | the Python functions, branch by branch, each citing file and lines |
| spec | `*Spec.v` | small independent specifications (X.690 encoding, big-endian value, list/record semantics) |
| proofs | `*Proofs.v` | lemmas |
| properties | `Properties*.v` | only the theorems (each `exact lemma`), `Print Assumptions`, and `Example`s that exhibit a concrete case meeting the hypotheses |

Conventions
* A byte is a `Z`; a byte string is `list Z`; `bytes_ok l` says every element is in 0..255. Python integers are `Z`.
* An exception is a value: `res A := Ok a | Err e`, with one constructor of `exn` per Python exception class.
* Loops that Python runs until a condition holds take fuel; running out of fuel is the separate error `OutOfFuel`,
  and a theorem shows it is unreachable with the fuel the model supplies.
* Type checks on arguments (`isinstance(...)` raising TypeError) are represented by the Coq types, unless a
  property is about them.

## Plan per property

| id | modelled | proof |
|---|---|---|
| C01, C02 | `util.int_to_bytes`, `int_from_bytes` (py3 branch, and py2 branch), `_int.fill_width` | arithmetic on big-endian value; induction on byte lists |
| C03-C09 | `parser.emit`, `parse`, `peek`, `_parse`, `_dump_header` with explicit pointer and depth | induction on fuel/depth; refinement to an inductive BER grammar |
| C10 | `Integer.set/native`, dump/load path | from C01, C03 |
| C11-C13 | `ObjectIdentifier.set/dotted` | base-128 digit induction; C12, C13 are expected to fail on some inputs: refuted with a witness and proved on the rest |
| C14, C15 | `BitString.set/native/_as_chunk`, `_int_to_bit_tuple` | bits-to-integer bijection |
| C16 | the octet/integer string classes | from C01/C02 |
| C17 | `Constructable._merge_chunks`, `_as_chunk`, `_build` on chunks | induction on chunk trees |
| C18 | UTF-8/16/32, latin1, ascii, teletex codecs written out (Python's codec is the trusted reference) | per-scalar case analysis, table sweep for teletex |
| C19, C20 | `AbstractTime`, `UTCTime`, `GeneralizedTime` with civil calendar arithmetic | days-from-civil bijection, digit printing/parsing |
| C21, C46 | `Asn1Value.__init__` tagging, `_build`, `dump` | induction on the list of explicit tags |
| C22, C23 | load/dump pipeline | case analysis on header/contents/trailer; the 0x80 header test is expected to break C22: refuted and restricted |
| C24, C25, C28, C47, C48 | schema datatype + `_build`, `_parse_children`, `_set_contents`, `Choice` | structural induction on schemas |
| C48 | the encoding of a set independent of the library: the members sorted by class and number of the outermost tag (`SetSpec.v`) | the object of a set and the object of the sequence with the same members are followed in step (`SetProofs.v`); only the encoding of the whole differs, and for `orderly` sets sorting by number is sorting by tag |
| C26, C27 | `SequenceOf`, `SetOf` | operation histories by `fold_left`; sorting lemma |
| C29, C30 | lazy child state machine with `_mutated`, caches | invariant by induction over histories |
| C31 | `Primitive.__eq__` | case analysis |
| C32, C33 | `pem.armor/_unarmor/detect` with base64 written out | induction on lines and 3-byte groups |
| C34, C35 | `IPAddress.set/native`, `_inet` | digit printing/parsing, list of groups |
| C36, C37 | `Name`, `RelativeDistinguishedName`, `_ldap_string_prep` with the Unicode tables as parameters | dictionary lemmas |
| C38 | `is_valid_domain_ip` on label lists | case analysis; regex matcher for the single `*` |
| C39 | `_ECPoint` | from C02 |
| C40 | `DSASignature` | from C02 |
| C41, C42 | tables extracted from the source text into a generated module | finite sweep over the generated tables, plus a general lemma for injective user maps |
| C43 | `extended_datetime` | reduction to integers (microseconds) |
| C44, C45 | setter/getter state machines with caches | case analysis; expected to fail for some classes: refuted |
| C49 | `_urlquote`, `_urlunquote` on code points | induction |
| C50 | `_set_extensions` loop | induction on the extension list |
| C51-C53 | named bits, exception classes, time texts | case analysis on the codecs |
| C54-C57 | `load` errors, histories of operations on primitives, `copy`, `retag`, `set_encoded_width` | invariants of the object model |
| C58 | time texts in BER form | grammar of the accepted texts |
| C59, C64 | repeated reads of containers, required fields of loaded objects | invariant over histories |
| C60 | `unused_bits` | from C14 |
| C61, C62 | damaged PEM text, line ends | induction on lines |
| C63 | malformed addresses | case analysis |
| C65-C68 | preparation of strings, hashable, caches, `Name.build` | tables as parameters; sorting lemmas |
| C72 | `EncryptionAlgorithm` accessors | computation for each name, parameters symbolic |
| C73 | all OID and number tables against a registry of arcs | one computation per table, lifted to all histories by C41 |
| C74, C75 | `ECPrivateKey` and `PrivateKeyInfo` as state machines | an invariant over all histories relating the objects to the last value and width |
| C76 | `Sequence` over an abstract stream of parts, with the spec callbacks of `keys.py` | induction over the reads; the types written from the standards and compared over the tables |
| C77 | the accessors as state machines with an unknown `clog` | bounds on `to_double`, induction over the reads |
| C78 | `_ForceNullParameters` as a state machine over the classes of `MapModel.v` | an invariant over histories; the tables checked once by computation |
| C79, C80 | the objects as contents, cached encoding and cached text | a relation between object and name that all uses keep |
| C81 | `urlsplit` inverts a separate rendering of the components (`UriSpec.v`) | lemmas per component from C49; the rendering is injective |
| C82 | dispatch over C37, C70, C79 to C81 | cases |
| C83, C84 | the accessors as state machines over their caches | an invariant: what is kept is what would be read |
| C85 | memory of cells with two links each, against a list of items | the cells form a ring in the order of the list, kept by insertion at the end and removal |
| C86 | BER encodings of structured values, given cut into their parts, independent of the reader (`BerSpec.v`) | induction over the schema; the loaded object stands for the value without owning canonical contents (`rep Stale`) |
| C71 | `_oid_specs` tables | sweep over the generated tables |
| C69, C70 | `valid_domains`, `valid_ips`, address matching | folds; platform functions as parameters |
| C87 | the string as an object of C22 with a parsed value beside it (`ParsModel.v`) | an invariant over histories: what is parsed is what the octets parse to, up to reads |
| C88 | children as objects of C24 with their class | induction over the classes; how the octets are cut is a separate relation (`ConcatSpec.v`) |
| C89 | the Any as header, contents, trailer, tags and parsed object | invariants over histories; the object inside by C24 and C86 |
| C90 | the object with the number of the class of its child, every operation with the fields of that class | the fields differ from those of the selected sequence only where no object is, so each operation equals one of C24 to C30 on an object for the same value |
| C91 | pickling as dump and load of the class without arguments (`PickModel.v`) | the dump of an object for a value is its encoding (C24, C30), which loads as an object for it |
| C92 | loading without a class (`GenModel.v`): the table of universal types, sequences without fields | one invariant that relates an object at any stage of lazy reading to a tree of values; induction over the height of the tree |
| C93 | class definitions copied to `Shapes.v` by `tools/gen_shapes.py`, the standards written by hand in `ShapeSpec.v` | a decision procedure for agreement, proved to decide it, run on every class |
| C94 | specs computed from `Shapes.v` and `Tables.v` | a check of well-formedness, proved sound, run on 88 classes; then C24 and C86; that the specs are those of the types (`TypeSpec.v`) by a second check |
| C95 | reading by reference in an environment of classes computed from `Shapes.v` and `Tables.v` | induction on the nesting of types for any environment that passes a check; the check run on the library's; that its classes are those of the types, with the names of the tables, by further checks |
| C96 | forced encoding by reference in the environment of C95, against a relation between value, BER and DER | induction on the nesting of types for any environment that passes the check of C95; defaults and identifiers by evaluation over the tables |
| C97 | constructors by reference in the environment of C95, against a relation between Python value and native, and the relation of C96 between native and DER | induction on the nesting of types for any environment that passes a check; the check by evaluation over the table |
| C98 | the text as lists of characters, the calendar of C19 and C43, doubles as fractions m / 2^e | arithmetic; the period of 400 years of the calendar; evaluation over the days of one year for the ISO year |
| C99 | positions as (identity if an object was made, value or exception) | induction over the indexes and the history; evaluation over the class table for the comparisons |
| C100 | causes as an inductive relation over the definitions of classes | induction over the fuel of the reader for the exceptions of each kind; closed sets of classes, computed, for the absence of causes |
| C101 | equations between ways to write the same tags; the four classes as a list | case analysis of the arguments; induction over tuples of explicit tags |
| C102 | the ten reasons with number, name and text | inversion of the reader for enumerations; evaluation over the ten reasons |

Properties that turn out false of the faithful model are recorded in the section "Findings" with a theorem
`..._refuted` and a witness, and the part that does hold is proved as `..._partial`.

## Trusted base

* The Coq 8.16.1 kernel; `coqchk` checks the compiled files again.
* Axioms: none. See "Assumptions".
* The correspondence between the text of `/repo` and the model, by inspection. Every definition cites the lines it
  follows and states what it leaves out; the list below collects the main simplifications.
* The specifications (`*Spec.v`) and the statements in `Properties*.v`.

## Assumptions

Every theorem of `Properties*.v` is followed by `Print Assumptions`, and each prints
`Closed under the global context`: no theorem depends on an axiom, neither of this development nor of the standard
library. (`coqchk` lists seven `Coq.ssr.ssrunder` constants because `lia` loads that library; no theorem uses them.)
Parameters of the model (Unicode tables, `inet_pton`, the `idna` codec, the float logarithm, `strftime` padding) are
arguments of the definitions or variables of closed sections, so theorems quantify over them.

## What is modelled

| source | model | remarks |
|---|---|---|
| `util.py` integer codecs, `_int.py` | `IntModel.v` | both the Python 3 and the Python 2 branch |
| `util.py` `extended_datetime`, `extended_date`: order, equality, arithmetic | `ExtModel.v` | instants as microseconds |
| `parser.py` `emit`, `parse`, `peek`, `_parse`, `_dump_header` | `ParserModel.v` | recursion depth explicit |
| `core.py` primitives: `Integer`, `Boolean`, `Null`, `ObjectIdentifier`, `BitString` and variants, `OctetString` and variants, `Enumerated`, character strings, `UTCTime`, `GeneralizedTime` | `IntModel.v`, `BitModel.v`, `OidModel.v`, `CodecModel.v`, `TimeModel.v` (contents), `PrimModel.v` (objects) | contents, native value, caches, tagging, `load`, `dump`, `copy`, `==`, `retag`, `untag` |
| `core.py` `Constructable` chunks | `PrimModel.v` | nested chunks up to any depth |
| `core.py` `Sequence`, `SequenceOf`, `Set`, `SetOf`, `Choice`, `Any` (as a field) | `ContModel.v`, `Cont*.v` | lazy children, caches, mutation, `native`, `dump`, `copy`; histories of operations along paths |
| `pem.py` | `PemModel.v` | base64 written out |
| `_inet.py`, `x509.IPAddress` | `InetModel.v` | platform functions as parameters |
| `keys._ECPoint`, `algos.DSASignature` | `EcModel.v` | float logarithm as a parameter |
| `x509.Name`, `RelativeDistinguishedName`, `NameTypeAndValue`, `NameType` | `NameModel.v` | Unicode tables as a record parameter |
| `x509.Certificate.valid_domains`, `valid_ips`, `is_valid_domain_ip` | `DomainModel.v` | regular expressions without groups, classes, escapes, braces; other patterns give the marker `OutOfFuel` |
| `_iri._urlquote`, `_urlunquote` | `IriModel.v` | `urllib` quoting and UTF-8 decoding written out (Python 3.7 and later, where `~` is unreserved); splitting into parts and host names not modelled |
| `core.py` `ValueMap._setup`, `ObjectIdentifier.map/unmap/set/native`, mapped `Integer` and `Enumerated`; `keys.NamedCurve.register`; `algos.AnyAlgorithmId` | `MapModel.v` | class attributes and inheritance of `_map`, `_reverse_map` explicit |
| `_map`, `_reverse_map`, `_oid_specs` and further tables of all modules | `Tables.v` | written by `tools/gen_tables.py` from the text of `/repo` and trusted as a copy |
| `algos.SignedDigestAlgorithm`, `algos.EncryptionAlgorithm` accessors | `AlgoModel.v` | parameters already parsed; the lists of `AlgoSpec.v` are written from the standards |
| `_set_extensions` and the accessors of `x509.Certificate`, `crl.RevokedCertificate`, `crl.CertificateList`, `ocsp.Request`, `OCSPRequest`, `SingleResponse`, `OCSPResponse` | `ExtnModel.v` | the fields read (`extn_id`, `critical`, `extn_value.parsed`) are results, the same at every read; the attribute and accessor names come from `Tables.v` |
| the `_map` tables as such | `Tables.v` | copied from the source; `RegSpec.v` gives the same numbers by arcs, written from the standards and from memory of the registries |
| `keys.ECDomainParameters.key_size`, `ECPrivateKey` with `__setitem__`, `set_key_size`, `_update_key_size`, `dump`, `copy`; `PrivateKeyInfo.__setitem__`, `wrap` for EC keys, `dump` | `KeyModel.v` | other fields given by their encodings, private keys assigned as integers, loaded octets in DER, outer header left out; `math.log` is an unknown function of its argument rounded to 53 bits |
| `keys.PublicKeyInfo`, `PrivateKeyInfo`: the spec callbacks, reading of the fields, `dump`, `algorithm`, `bit_size`, `byte_size`, `hash_algo`, `curve`; `DSAParams.q_byte_size` | `InfoModel.v` | the parts and how each is built are parameters; `math.log` is an unknown function of its argument rounded to 53 bits |
| `algos._ForceNullParameters` (`_parameters_spec`, `__setitem__`), the algorithm identifier that `wrap` makes for RSA keys | `NullModel.v` | parameters are told apart by class only |
| `x509.DNSName`, `x509.EmailAddress` (`set`, `__unicode__`, `__eq__`, `contents`) | `AddrModel.v` | the idna codec beyond ASCII and `lower` beyond ASCII are arguments |
| `_iri.iri_to_uri`, `_iri.uri_to_iri`, `x509.URI` | `UriModel.v` | `urlsplit` and `urlunsplit` written out after CPython 3.11; its checks of bracketed hosts and of compatibility characters are arguments |
| `x509.GeneralName.__eq__`, `x509.DistributionPoint.url`, accessors of `x509.Certificate`, `crl.CertificateList` and `crl.RevokedCertificate` built on extensions | `CertModel.v` | extensions are given as parsed (C50); the hash is an argument |
| `_ordereddict.OrderedDict` | `OrdModel.v` | the Python lists of the linked list are cells of a memory; the functions of Python's DictMixin are written out; no keyword arguments, no changes during iteration |
| `ParsableOctetString`, `ParsableOctetBitString` | `ParsModel.v` | parsing without a spec (`Asn1Value` of unknown spec) is an argument; `spec_params` are `explicit` and `implicit` only |
| `Concat` | `ConcatModel.v` | objects assigned are new; the index is an integer |
| `Any`, `_build` for it | `AnyModel.v` | parsing without a spec is an argument; `spec_params` are `explicit` (number or tuple of pairs) and `implicit` only; the dict is returned changed |
| `Sequence` with `_oid_pair` | `OpenModel.v` | the identifier comes before the value; the field has no default; what `Any` does as a field is an argument |
| `Asn1Value.__reduce__`, `unpickle_helper` | `PickModel.v` | pickle stores the class by name and the octets as they are |
| `load`, `_build` without spec, `_UNIVERSAL_SPECS`, `Sequence`, `Set`, `EmbeddedPdv` without fields | `GenModel.v` | reading only; no recursion limit; an index into a primitive is a TypeError |
| `_fields`, `_alternatives`, `_child_spec`, `tag`, bases and `_oid_specs` of every class | `ShapeModel.v`, `Shapes.v` (generated) | bases depth first; `_spec_callbacks` only recorded |
| the class attributes as specs of the container model | `LibModel.v` | only classes that redefine nothing of `core.py`; nesting up to eight classes |
| `_build`, `_determine_spec`, `_parse_children` and `native` over all classes | `ReadModel.v`, `LibRead.v` | natives only, no object in between and no caches; errors may come in another order; the class of a field is chosen only when the field is present; methods that choose a class or replace `native` are copied by hand, with their lines |
| `dump(force=True)` of loaded objects of all classes | `RecodeModel.v`, `LibRecode.v` | nothing is asked of the object in between; an absent field with a default writes nothing; errors may come in another order; defaults are encoded from their natives |
| constructors of all classes, then `dump()` | `WriteModel.v`, `LibWrite.v` | nothing is asked of the object in between; an absent field with a default writes nothing; errors may be others or come in another order; see C97 for the objects left out |
| `extended_datetime.isoformat`, `strftime`, `replace`, `astimezone`, `timestamp`, `date`, `time`; `extended_date`; `_format_offset`, `timezone` (Python 2), `create_timezone` | `DateModel.v` | C's strftime written out with the names of the locale as parameters; double arithmetic written out for the range that occurs; fixed offsets only |
| `SequenceOf.__len__`, `__getitem__`, `_lazy_child`, `__iter__`, `__contains__`, `append`, `__setitem__`, `__delitem__`; lookup of `__eq__` and `__hash__` | `MemModel.v` | identity as numbers given out in order; how children are made, compared and retagged as parameters; comparison without its caches |
| exceptions of `load` and `.native` of all classes | `ReadModel.v`, `LibModel.v`, `RaiseLib.v` | no new model; the causes are stated in `RaiseSpec.v` |
| `Asn1Value.__init__` (arguments of tags), `_tag_type_to_explicit_implicit` | `ArgModel.v` | arguments as given by users; no booleans, no sequences other than tuples |
| crl `CRLReason.human_friendly` | `ReasonModel.v` | none |

Simplifications of the container model: a field without a spec builds the marker `OutOfFuel`; negative list indices are
not modelled; a path is followed anew for every operation; the well-formedness hypothesis `wf` leaves out `Set`, a
choice under more than one explicit tag, optional fields whose class has explicit tags, and sequence defaults that
themselves lack optional fields (each of these is covered by a refutation instead, where it misbehaves).

Not modelled: `debug` output, `repr`; `Any` as a field of a structure; `_perf` (OpenSSL bindings). Of the
schema modules `cms`, `crl`, `csr`, `ocsp`, `pdf`, `pkcs12`, `tsp` the class definitions are modelled (C93), their
methods only where a property names them. `Shapes.v` is a generated copy like `Tables.v`, and trusted as one; the
definitions in `ShapeSpec.v` are trusted to be those of the standards.

## Findings

Properties, or parts of them, that are false of the model. Each theorem gives a witness checked by computation.
The part that does hold is proved beside it.

| property | code | theorems | what happens |
|---|---|---|---|
| C01, C02 | Python 2 branch of `int_to_bytes` | `C01_py2_signed_codec_refuted`, `C02_py2_signed_fixed_width_refuted` | signed values are encoded wrongly, and a width too small for a negative value is not noticed |
| C12 | `ObjectIdentifier.set` | `C12_invalid_oid_accepted_refuted` | a single arc gives empty contents, negative arcs are encoded |
| C13 | `ObjectIdentifier.dotted` | `C13_oid_contents_not_injective_refuted` | padded and truncated sub-identifiers are read as other identifiers |
| C20 | `GeneralizedTime.set` | `C20_unpadded_year_refuted` | where `strftime('%Y')` does not pad, years below 1000 are written as another instant |
| C21 | tagging | `C21_implicit_in_explicit_class_refuted`, `C21_both_tags_refuted` | an implicit tag for a class with explicit tags is written but not read back; beside an explicit tag argument an implicit one is ignored |
| C22 | `Asn1Value.dump` | `C22_length_80_refuted` | a definite length whose last octet is 0x80 is taken for an indefinite one, and the dump differs from what was loaded |
| C23 | `dump(force=True)` | `C23_octet_bit_string_refuted`, `C23_integer_bit_string_refuted`, `C23_unnamed_bit_refuted`, `C23_null_refuted`, `C23_readable_but_not_dumpable_refuted`, `C23_unknown_elements_lost_refuted` | the forced dump changes or loses data, or raises, for the classes named |
| C24 | `Sequence.__init__` | `C24_empty_dict_refuted` | an empty dict counts as no value |
| C25 | defaults | `C25_default_leaks_refuted` | a sequence as default leaks into values without its optional fields |
| C28 | `Choice` | `C28_two_explicit_tags_refuted`, `C28_outdated_length_refuted` | an explicit tag around a choice is forgotten or keeps its old length |
| C30 | lazy children | `C30_dump_of_part_hides_change_refuted`, `C30_set_of_primitive_unnoticed_refuted`, `C30_change_below_choice_unnoticed_refuted` | changes inside are not seen by the dump of the whole |
| C31 | `Primitive.__eq__` | `C31_equal_but_different_refuted` | objects with different values are equal |
| C34 | `IPAddress.native`, `set` | `C34_other_masks_refuted`, `C34_native_not_injective_refuted`, `C34_with_shim_refuted` | masks that are not a run of ones are shown as a prefix they are not; with `_inet.py` addresses ending or starting in `::` cannot be stored |
| C35 | `_inet.inet_pton` | `C35_ipv6_round_trip_refuted`, `C35_network_refuted` | texts that start or end in `::` are refused |
| C36 | `Name.__eq__`, `hashable` | `C36_reflexive_refuted`, `C36_replacement_refuted`, `C36_hashable_refuted`, `C36_order_refuted` | names with unpreparable values are not equal to themselves but raise; INTEGER 1 equals BOOLEAN TRUE with another hashable; the order of two attributes of one type matters |
| C37 | `RelativeDistinguishedName.__eq__` | `C37_refuted` | of several values of one type only the last is compared |
| C38 | `is_valid_domain_ip` | `C38_pattern_characters_refuted`, `C38_covered_not_found_refuted`, `C38_line_feed_refuted`, `C38_unencodable_refuted` | the first listed label is used as a regular expression; a final line feed of the host label is ignored; one listed name that cannot be encoded makes every check raise |
| C39 | `_ECPoint` | `C39_zero_refuted`, `C39_one_refuted`, `C39_power_refuted`, `C39_width_refuted`, `C39_malformed_refuted` | coordinates 0, 1 and powers of 256 raise; coordinates are not padded to the field; malformed points are accepted |
| C41 | `ObjectIdentifier`, `AnyAlgorithmId` | `C41_any_algorithm_refuted`, `C41_late_entry_refuted`, `C41_import_renames_refuted`, `C41_subclass_map_refuted`, `C41_name_is_key_refuted`, `C41_second_name_refuted`, `C41_unmap_not_an_oid_refuted` | `AnyAlgorithmId` never builds its reverse map and raises TypeError for any value; entries added to a map in use are readable but not writable; importing `pdf` renames an extended key usage; a subclass with its own map writes by the map of its parent; a text that is both name and key is written as one and shown as the other; `unmap` accepts texts that are no OIDs |
| C42 | `hash_algo`, `cms_hash_algo` | `C42_pss_without_parameters_refuted`, `C42_undocumented_digest_refuted` | RSASSA-PSS without parameters raises TypeError; its digest may be none of the documented ones |
| C43 | `extended_datetime` | `C43_add_then_sub_refuted`, `C43_far_sum_refuted` | sums into the years 1 and 8000..9999 fail or cannot be undone |
| C44 | reading | `C44_native_changes_refuted`, `C44_oid_dump_changes_refuted` | reading a value changes what is read or dumped later |
| C45 | `set` | `C45_dotted_refuted`, `C45_null_refuted` | `dotted` keeps the value read before a set; the header of a Null is kept |
| C46 | explicit tags | `C46_extra_value_accepted_refuted` | data after the value inside an explicit tag is accepted in strict mode |
| C47 | `Choice` | `C47_choice_refuses_indefinite_refuted` | alternatives of indefinite length are refused |
| C48 | `Set` | `C48_absent_member_refuted`, `C48_forced_dump_of_loaded_set_refuted`, `C48_order_of_classes_refuted`, `C48_order_of_explicit_tags_refuted`, `C48_length_ending_in_80_refuted`, `C48_assigned_before_read_refuted` | a Set with an absent member cannot be dumped, nor a loaded Set with force, nor one whose length octets end in 0x80, nor one that was loaded and changed before its members were read; members are sorted by tag number without the class and without explicit tags, so that the encoding is not DER |
| C49 | `_urlquote`, `_urlunquote` | `C49_percent_lost_refuted`, `C49_stray_percent_refuted`, `C49_null_refuted`, `C49_control_refuted`, `C49_escaped_reserved_refuted`, `C49_user_colon_refuted` | an escaped percent sign is lost, so that data changes; a null beside an escape raises IndexError; control characters of a path become slashes; escaped reserved characters other than `/ & =` become literal |
| C51 | `BitString.set` | `C51_unknown_names_silently_dropped_refuted` | unknown names are dropped |
| C52 | exceptions | `C52_unexpected_exceptions_refuted`, `C52_gentime_overflow_refuted` | malformed data raises exceptions other than ValueError |
| C53 | time texts | `C53_trailing_newline_refuted` | a final line feed is accepted |
| C56 | `copy` | `C56_copy_loses_width_refuted`, `C56_copy_keeps_old_native_refuted` | a copy forgets the width, or never sees later changes |
| C59 | `native` | `C59_truncated_after_error_refuted` | after an error `native` returns what had been collected up to then |
| C61 | `pem.unarmor` | `C61_truncated_refuted`, `C61_missing_end_refuted`, `C61_damaged_body_refuted`, `C61_label_refuted` | damaged text loses blocks or changes data without an error; labels that armor accepts are not found |
| C63 | `_inet.inet_pton`, `IPAddress.set` | `C63_struct_error_refuted`, `C63_refused_text_kept_refuted`, `C63_lenient_refuted` | `struct.error` escapes; a refused text stays as native; texts that are no addresses are accepted |
| C65 | `_ldap_string_prep` | `C65_drops_refuted`, `C65_keeps_refuted` | U+FE0F to U+FF00 vanish, Arabic presentation forms included; variation selectors stay |
| C66 | `hashable` | `C66_bytes_refuted`, `C66_repeated_refuted`, `C66_empty_refuted` | different names with one hashable |
| C67 | `prepped_value` | `C67_refuted` | the prepared value survives an assignment |
| C68 | `Name.build` | `C68_order_refuted` | a dict naming one type in two ways gives a name that depends on the order of the dict |
| C69 | `valid_domains` | `C69_line_feed_refuted`, `C69_empty_extension_refuted` | a common name may end in a line feed; an empty extension counts as absent |
| C70 | `is_valid_domain_ip` | `C70_mapped_refuted`, `C70_network_refuted`, `C70_other_size_refuted`, `C70_bad_address_refuted` | listed IPv4-mapped addresses, networks and entries of other sizes make the check raise, as do texts that are no address |
| C71 | `pkcs12.Attribute` | `C71_csp_name_refuted` | the type bound to `microsoft_csp_name` is never used: 1.3.6.1.4.1.311.17.1 is named `microsoft_local_machine_keyset` |
| C72 | `EncryptionAlgorithm` | `C72_rc2_large_key_refuted`, `C72_rc2_default_refuted`, `C72_key_error_refuted`, `C72_stream_mode_refuted`, `C72_wrap_digest_refuted`, `C72_salt_of_cipher_refuted`, `C72_scrypt_salt_refuted`, `C72_iv_refuted`, `C72_without_parameters_refuted` | `key_length` of RC2 returns bits from 256 on and raises TypeError without a version; RC4 raises KeyError; RC4 of PKCS#12 has mode cbc; `kdf_hmac` of AES key wrap is `wrap`; `kdf_salt` raises TypeError for plain ciphers and AttributeError for scrypt; the vectors of CFB and CCM are not returned |
| C50 | `_set_extensions` | `C50_stale_refuted`, `C50_leftover_refuted`, `C50_shared_set_refuted`, `C50_no_response_refuted` | answers survive a replacement of the extensions, so a critical one goes unseen; values found before an error stay behind; the set returned is the one kept; an OCSP response without `response_bytes` makes every accessor raise TypeError where the documentation promises None |
| C73 | `x509.KeyPurposeId`, `pkcs12.AttributeType` | `C73_apple_refuted`, `C73_microsoft_refuted` | the identifiers ending in .30, .31 and .32 of Apple's policies are entered under 1.2.840.113625, which is not Apple's arc; 1.3.6.1.4.1.311.17.1, the provider name, is called `microsoft_local_machine_keyset` |
| C74 | `ECDomainParameters.key_size` | `C74_specified_refuted` | the size of explicit parameters comes from the logarithm of the order rounded to 53 bits, so it cannot be right both for secp224r1 and for secp224k1 |
| C74 | `ECPrivateKey` | `C74_second_key_refuted`, `C74_loaded_size_refuted`, `C74_loaded_forced_refuted`, `C74_copy_refuted`, `C74_by_index_refuted`, `C74_resize_stale_refuted`, `C74_refused_kept_refuted` | the width is taken from the first private key, so a longer one raises OverflowError; the parameters of a loaded key are not used, so a new private key is written too short; a loaded key or a copy that is dumped anew loses leading zeros; fields assigned by number skip the sizing; `set_key_size` after a dump does not show in the next dump; a private key that was refused stays in the object |
| C75 | `PrivateKeyInfo` | `C75_stale_octets_refuted`, `C75_changed_curve_refuted` | the octet string is made before the key gets its size, so `dump()` writes the short key though `.parsed` shows the long one; the same after a change of the curve |
| C76 | `PublicKeyInfo`, `PrivateKeyInfo` | `C76_unknown_refuted` | the spec callback indexes a dictionary, so an algorithm without a name raises KeyError, which `_parse_children` does not expect: the fields read so far stay, later reads return the algorithm, raise IndexError for the key, and `dump()` raises IndexError too |
| C76 | `Sequence._parse_children` | `C76_extra_part_refuted` | parts after the last field are accepted and lost by `dump(force=True)` |
| C77 | `bit_size` | `C77_rounded_refuted`, `C77_ec_private_refuted`, `C77_compressed_refuted` | the logarithm is taken of a number rounded to 53 bits, so a modulus of 256 octets and one of 257 get the same size; the size of an EC private key is that of its secret number; a compressed point gives half the size |
| C77 | `bit_size`, `hash_algo` | `C77_no_size_refuted`, `C77_inherited_refuted`, `C77_stale_refuted` | X25519, X448, Ed25519, Ed448, DH and OAEP keys raise UnboundLocalError; DSA public keys that inherit their parameters raise TypeError; the answers stay after the fields are changed |
| C78 | `_ForceNullParameters` | `C78_old_signatures_refuted` | md2_rsa, md5_rsa and sha1_rsa are not in `_null_algos`, so signatures made with them have no parameters though RFC 3279 requires NULL |
| C78 | `_ForceNullParameters.__setitem__` | `C78_left_over_refuted`, `C78_other_parameters_refuted`, `C78_by_index_refuted`, `C78_order_refuted` | the parameters stay when the algorithm is changed to one with other parameters or none; a field assigned by number gets no NULL; parameters assigned before the algorithm raise AttributeError |
| C78 | `PublicKeyInfo.wrap`, `PrivateKeyInfo.wrap` | `C78_wrap_pss_refuted` | NULL is assigned where the field needs `RSASSAPSSParams`, so rsassa_pss, which the documentation allows, always raises TypeError |
| C79 | `DNSName.__eq__` | `C79_case_refuted`, `C79_same_octets_refuted` | `XN--...` is not decoded, so it differs from `xn--...`; a name that was set is compared as it was given, so two objects with the same octets may be unequal |
| C80 | `EmailAddress.__eq__` | `C80_not_comparable_refuted`, `C80_new_refuted` | addresses with letters beyond ASCII or an empty label are read but raise UnicodeError when compared, even with themselves; a new object raises AttributeError and TypeError |
| C80 | `EmailAddress.contents` | `C80_compare_changes_refuted`, `C80_compare_rewrites_refuted` | the setter of `contents` always resets `_normalized`, so each comparison writes the object anew: other octets are dumped afterwards |
| C81 | `uri_to_iri`, `URI.__eq__` | `C81_delimiters_refuted` | `%2F`, `%3F`, `%23` in a user name or path are shown as delimiters, so `http://a%2F@b/` (host b) equals `http://a/@b/` (host a) |
| C81 | `iri_to_uri`, `uri_to_iri` | `C81_ipv6_refuted` | the brackets of an IPv6 address are lost; the result cannot be read, and the URI cannot be compared (ValueError) |
| C81 | `iri_to_uri`, `uri_to_iri` | `C81_ldap_refuted`, `C81_slashes_refuted`, `C81_empty_refuted` | `ldap:///CN=x` becomes `ldap:/CN=x`, `file:a` becomes `file:///a`, `http://h/?` becomes `http://h/` |
| C81 | `iri_to_uri` | `C81_scheme_refuted`, `C81_password_refuted`, `C81_errors_refuted` | a + in the scheme is escaped; the password of an empty user name is lost; a new URI raises TypeError when compared |
| C82 | `GeneralName.__eq__` | `C82_other_kinds_refuted` | comparing with an other_name, x400_address or edi_party_name raises ValueError even if the kinds differ, so `in` over general names may raise |
| C83 | `DistributionPoint.url`, `CertificateList.issuer_cert_urls`, `CertificateList.delta_crl_distribution_points`, `RevokedCertificate.issuer_name` | `C83_url_changes_refuted`, `C83_crl_changes_refuted` | the cache is filled before the parts are read: the first access raises, later ones answer None or a part of the list; absent names raise AttributeError |
| C83 | `Certificate._get_http_crl_distribution_points` | `C83_twice_refuted` | a point with two URIs is listed twice; URIs of other schemes count, though the comment says HTTP only |
| C84 | `Certificate.self_signed` | `C84_empty_key_refuted`, `C84_signed_changes_refuted` | an empty key identifier counts as absent; after an exception the answer is `no` |
| C84 | `Certificate.authority_issuer_serial`, `Certificate.ca` | `C84_authority_refuted`, `C84_ca_refuted` | AttributeError unless the directory name is the first; `:None` without a serial number; `ca` is None without basic constraints |
| C22, C29 | `Choice.dump` | `C22_choice_refuted`, `C29_choice_refuted` | under an explicit tag, the chosen value may be encoded anew (its length ends in the octet 0x80, or dump(force=True) was called on it) while the old header around it is kept: the result cannot be loaded |
| C29 | `Sequence._parse_children`, `Sequence._is_mutated` | `C29_structured_default_refuted` | an absent field with a sequence as default counts as changed, so after `len()` or a read, dump() gives the DER encoding instead of the loaded octets (RSASSAPSSParams and RSAESOAEPParams have such fields) |
| C87 | `ParsableOctetString.set` | `C87_set_after_parse_refuted` | setting a string that was parsed keeps the old parsed value: `native` gives it, and `dump(force=True)` puts the old octets back |
| C87 | `ParsableOctetString.dump` | `C87_parse_changes_dump_refuted` | after `parse()`, `dump()` of a string loaded in segments loses the octets after the first value |
| C87 | `ParsableOctetString.dump` | `C87_change_inside_unnoticed_refuted` | a change of the parsed object shows in `native` but neither in `dump()` nor in `bytes()` |
| C87 | `ParsableOctetBitString` | `C87_empty_bit_string_refuted` | a bit string without the octet of unused bits, and one without segments, raise IndexError instead of ValueError |
| C88 | `Concat.__init__` | `C88_missing_part_refuted` | octets that end before the last class are accepted, but `dump()` then raises TypeError: a plain certificate loaded as `TrustedCertificate` cannot be dumped |
| C88 | `Concat.__init__` | `C88_too_few_refuted` | with fewer objects than classes `dump()` raises AttributeError; an object without contents and values has no children list, so `len()` and assignments raise TypeError |
| C89 | `Any.parse` | `C89_parse_again_refuted` | under an explicit tag a second `parse()` with another spec (or after `.native`) fails: the first one forgets the tag but keeps its octets |
| C89 | `Any.parse` | `C89_tags_passed_refuted` | explicit tags passed in `spec_params` are put outside those of the Any instead of inside, and a tag number raises TypeError |
| C89 | `Any.parse` | `C89_dict_changed_refuted` | the explicit tags of the Any are written into the dict of the caller, so using the dict again fails |
| C89 | `Any._copy`, `Any.parse` | `C89_copy_unusable_refuted` | the copy of an Any that was not parsed loses its header and raises TypeError for everything; an Any made from an object raises TypeError on `parse()` |
| C89 | `Any.dump` | `C89_tags_lost_refuted` | explicit tags of an Any made from an object, or given to `retag()`, are not written |
| C90 | `Sequence.__setitem__` | `C90_reassigned_refuted` | assigning the object identifier leaves the value of the old class in place; what is dumped then can not be read |
| C91 | `__reduce__` | `C91_tagged_refuted`, `C91_lost_change_refuted` | an object that was given tags cannot be unpickled; changes that dump() does not see are lost |
| C92 | `_build` 5630 | `C92_class_ignored_refuted` | without a class the tag class is ignored: `[2] IMPLICIT OCTET STRING` is read as an INTEGER |
| C92 | `Set` without `_fields` | `C92_set_refuted`, `C92_set_inside_refuted` | a non-empty SET loads, but native and dump(True) raise ValueError, and so does native of a sequence around it |
| C92 | `Asn1Value._merge_chunks` etc. | `C92_segments_refuted` | segments of a string with definite total length are not merged |
| C92 | `EmbeddedPdv.dump` | `C92_embedded_pdv_refuted` | dump(True) drops the contents |
| C92 | `Sequence.native` | `C92_partial_native_refuted` | after an error other than ValueError and TypeError in native the next read returns a dict without the values not yet read |
| C92 | `Enumerated.native` | `C92_enumerated_refuted` | an ENUMERATED loaded without a class has no native (TypeError) |
| C92 | `RelativeOid` | `C92_relative_oid_refuted` | the first subidentifier of a relative identifier is split as for an absolute one |
| C92 | `Sequence.dump` | `C92_not_der_refuted` | dump(True) of an untyped sequence leaves indefinite lengths inside it |
| C93 | x509 `CountryName`, `AdministrationDomainName` | `C93_country_name_refuted` | the tags [APPLICATION 1] and [APPLICATION 2] are neither written nor accepted |
| C93 | x509 `EDIPartyName` | `C93_edi_party_name_refuted` | implicit tags on a choice, which the library itself refuses |
| C93 | cms `V2Form` | `C93_v2form_refuted` | explicit tags where RFC 5755 has implicit ones |
| C93 | tsp `TimeStampResp`, cms `OtherKeyAttribute`, algos `CcmParams` | `C93_required_refuted` | optional or defaulted components are required: a rejection without token is refused |
| C93 | csr `CertificationRequestInfo` | `C93_optional_refuted` | attributes may be missing |
| C93 | x509 `ExtensionAttributes`, tsp `MetaData`, `ArchiveTimeStamp`, cms `ExtendedCertificateInfo` | `C93_set_of_refuted` | SEQUENCE OF where the standards have SET OF |
| C93 | cms `SMIMEEncryptionKeyPreference`, tsp `TimeStampAndCRL`, `ArchiveTimeStampSequence` | `C93_type_refuted` | components of another type |
| C93 | pkcs12 bags, `SubjectDirectoryAttribute`, `CRIAttribute`, `DirectoryString` | `C93_open_refuted` | octet strings for open types, open types for sets, an alternative too many |
| C93 | csr `CRIAttribute` | `C93_extended_attributes_refuted` | extendedCertificateAttributes lacks the outer SET |
| C93 | x509 `NameTypeAndValue` | `C93_bound_partial` | serial number, country name, DN qualifier and country of incorporation are DirectoryString instead of PrintableString |
| C94 | x509 `EDIPartyName` | `C94_edi_party_name_refuted` | no encoding can be loaded and no object made, as the tags on its choices are implicit |
| C94 | x509 `NotReallyTeletexString` | `C94_directory_string_refuted` | text is written as teletex and read as Windows-1252: a dollar sign in the teletex_string of a DirectoryString comes back as a currency sign |
| C94 | algos `CcmParams` | `C94_ccm_params_refuted` | parameters that leave out the length, 12 by default in RFC 5084, are refused |
| C95 | keys `PublicKeyInfo` | `C95_unknown_algorithm_refuted` | a key of an algorithm without a name in the library raises KeyError, and so does the native of any certificate with such a key |
| C95 | cms `CertificateChoices` | `C95_v1_attribute_certificate_refuted` | attribute certificates of version 1 in DER, which leave out the version, are refused with ValueError |
| C96 | algos `Pbkdf2Params` | `C96_pbkdf2_default_refuted` | the default of `prf` lacks the NULL of RFC 8018: the real default is kept by forced encoding, and hmacWithSHA1 without parameters is left out |
| C96 | tsp `ESSCertIDv2` | `C96_signing_hash_default_refuted` | the default of `hash_algorithm` has a NULL that RFC 5035 does not have, so { sha256, NULL } is left out |
| C96 | algos `SignedDigestAlgorithmId` | `C96_alias_refuted` | forced encoding of DER with identifier 1.3.14.3.2.29 writes another identifier |
| C96 | algos `AnyAlgorithmIdentifier` | `C96_any_algorithm_refuted` | forced encoding raises TypeError, as `_reverse_map` is never set up |
| C96 | core `Any`, `Null` | `C96_open_refuted` | BER in an Any and a NULL with a long length stay as they are |
| C96 | core `Sequence` | `C96_extra_refuted` | elements after the last field are read, but dropped by forced encoding |
| C96 | x509 `NotReallyTeletexString` | `C96_teletex_refuted` | forced encoding changes `$` to the octet 164, and raises UnicodeEncodeError for accented letters |
| C97 | x509 `BasicConstraints` | `C97_empty_refuted` | all fields may be left out, but `BasicConstraints({})` has no contents and cannot be written |
| C97 | algos `_ForceNullParameters` | `C97_null_refuted` | `sha1_rsa` and `md5_rsa` given by name are written without the NULL that RFC 3279 asks for |
| C97 | algos `AnyAlgorithmId` | `C97_any_algorithm_refuted` | it is read, but cannot be made of what was read |
| C97 | core `Choice` | `C97_native_refuted` | the native of a structure with a Choice is not accepted by the constructor |
| C98 | util `_format_offset` | `C98_isoformat_refuted` | seconds of an offset are dropped: -00:00:30 is written -00:01, like another time |
| C98 | util `extended_datetime.strftime` | `C98_strftime_refuted` | `%G` gives 1999 on 1 and 2 January of year 0 |
| C98 | util `extended_datetime.astimezone` | `C98_astimezone_back_refuted` | 0000-12-31 23:00 UTC becomes year 1 at +01:00, and that raises OverflowError when brought back to UTC |
| C98 | util `extended_datetime.timestamp` | `C98_timestamp_refuted` | the double holds no microseconds that far from 1970: unequal times have equal time stamps |
| C99 | core `SequenceOf.__contains__` | `C99_equal_values_refuted` | Sequence, Set, lists, Any and Choice have no `==`: for 80 list classes (certificates, CRLs, extensions, attributes, signers) `x in l` is true only for the very objects of the list, not for an object with the same encoding |
| C99 | x509 `GeneralNames` | `C99_general_names_refuted` | `x in names` raises ValueError when a name of a kind without comparison comes before x, even though x is in the list |
| C99 | core `SequenceOf.__getitem__` | `C99_slice_refuted` | `l[0:2]` returns the parser's tuples for children not asked for before |
| C100 | core `Sequence._parse_children` | `C100_trailing_refuted` | elements after the last field are accepted and read by their tags alone: BasicConstraints followed by an enumerated number, an empty bit string, a real number or the last instant of 9999 raises TypeError, IndexError, AttributeError or OverflowError from `.native` |
| C100 | crl `CRLReason`, cms `CertificateChoices.validate` | `C100_names_refuted` | an unknown reason raises KeyError from `.native`; a CertificateChoices with an empty v1 attribute certificate raises KeyError from validate() |
| C101 | core `Asn1Value.__init__` | `C101_class_name_refuted` | `explicit=('contextual', 1)` raises KeyError: the class is looked up before it is checked; documented is ValueError, which implicit gives |
| C101 | core `Asn1Value.__init__` | `C101_both_refuted` | implicit given together with explicit is dropped without an error |
| C101 | core `_tag_type_to_explicit_implicit` | `C101_convert_refuted` | a misspelt tag_type of a field is dropped, so that the field has no tag, where constructors raise ValueError; with explicit in both styles fields use the old one and constructors the new one; a misspelt tag_type without tag raises KeyError the first time only |
