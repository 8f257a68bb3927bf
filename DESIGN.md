# Design: a Rocq model of open-dis-rust

## Approach
A shallow, executable Gallina model, one definition per Rust function, each with a comment citing file and lines.
* Integers are `uint k` (k bytes): a natural number together with a boolean proof that it is below 256^k, so theorems quantify over whole Rust types without side conditions. Floats are bit patterns on the wire.
* `Buf` is a list of bytes; a reader is `bytes -> outcome (A * bytes)`; a panic is an explicit `Panic reason` outcome.
* `BytesMut` is a list of bytes that is appended to.
* `define_pdu!` is modelled once, as a function of the class description (type, family, ordered field list with optional `len` attribute); the 66 invocations are data. Generic theorems therefore hold for every class definable with the macro.
* serialize and deserialize of each record type are transcribed separately, so that disagreements between them (there are several) stay visible; claims that fail become `_refuted` theorems with a witness, next to a theorem stating what happens instead.

## Trusted base
* Coq 8.16.1's kernel (including `vm_compute`, which some proofs use for closed computations).
* `Print Assumptions` (run at the end of each Prop_*.v file over all its theorems) reports **Closed under the global context** for every theorem of MANIFEST.json except the C34_* and C36_* ones, C66_vectors, the C67 theorems about the clock (all but C67_header_independent), those of C59 that speak about floats (all but C59_exact), and the C85_* ones (through C34).
* C34_*, C36_*, C66_vectors, C67_* (other than C67_header_independent), C59_* (other than C59_exact) and C85_* speak about IEEE-754 arithmetic through Flocq (which declares no axioms), and Flocq uses the standard library's real numbers. `Print Assumptions` lists for each of them exactly: `ClassicalDedekindReals.sig_not_dec`, `ClassicalDedekindReals.sig_forall_dec`, `FunctionalExtensionality.functional_extensionality_dep`, `Classical_Prop.classic`. All four are axioms of Coq's standard library.
* A scan of the loaded files (coqchk-style) additionally sees the opaque module fields of the standard library that are not used by any theorem as assumptions: `Coq.Reals.Rdefinitions.RbaseSymbolsImpl.*`, `Coq.Reals.Rdefinitions.RinvImpl.*` (fields of sealed modules, defined in the library) and `Coq.ssr.ssrunder.Under_rel.*` (likewise, loaded transitively by the Lia plugin files).
* No axiom, `Admitted`, functor or module type of our own; no kernel check is switched off.
* The transcription. The model is a hand- and script-made transcription of the Rust text: Enums.v, EnumNames.v, DataTypes.v, Pdus.v are generated by tools/gen_*.py from /repo (irregular record types by hand, tools/hand_dt.txt); Base.v, EnumModel.v, Header.v, PduMacro.v, Bitflags.v, EmptyEnums.v, Examples.v, Floats.v by hand. Whether it is faithful is not machine-checked; the citations make it reviewable. tools/crosscheck holds separate scripts that compare the finished Coq text with the Rust text (field order, integer widths, enumeration codes and defaults, class descriptions); they find no difference.
* The specification side (SpecTables, SpecEnums, SpecRecords, SpecDatum, SpecSpecial, Spec and the "Specification vocabulary" sections of Prop_*.v) is what the English claims are compared against. SpecIeee's tables were written from knowledge of IEEE 1278.1; the standard itself was not available in the sandbox.

## What is modelled
| Rust | Model |
|---|---|
| integers, `as` casts, `try_from`, `Buf::get_*`, `BufMut::put_*`, panics | Base.v |
| src/common/enums.rs: 402 enumerations (discriminants, default, `deserialize`, 56 field-trait impls), three empty enumerations | EnumModel.v, Enums.v, EmptyEnums.v |
| src/common/enums.rs: variant names, `derive(Debug)` of enumerations, `E::Name` | EnumNames.v |
| `new` of every record type | Constructors.v |
| src/common/dis_error.rs: all nine variants, `Display`, helper constructors; PduType names | ErrorText.v |
| sources of errors (`#[source]`, `#[from]`) | ErrorSource.v |
| the three `bitflags!` types | Bitflags.v |
| the named flags and set operations of the `bitflags!` types | Flags.v |
| methods generated by `#[bitfield]` and `derive(Specifier)` beyond getters and setters | Status.v |
| common/pdu.rs as a trait object: `dyn Pdu`, `as_any`, `downcast_ref` | DynPdu.v |
| threads that share an output buffer behind `std::sync::Mutex` | Threads.v |
| src/common/pdu_header.rs, live_entity_pdu_header.rs, generic_header.rs, the status record with its bit accessors and indicator conversions, constants.rs, the two DISError variants that the library constructs | Header.v |
| src/pdu_macro.rs and src/common/pdu.rs: field traits, containers, `define_pdu!` (new, default, calculate_length, finalize, serialize, deserialize, deserialize_without_header, deserialize_body, header accessors) | PduMacro.v |
| src/pdu_macro.rs with any header type; src/common/generic_header.rs; field traits of PduHeader; GenericHeader for LiveEntityPduHeader | MacroHeader.v |
| src/common/data_types/*.rs: every record type (struct, Default, serialize, deserialize, LENGTH, FieldLen) | DataTypes.v |
| src/*.rs: all 66 `define_pdu!` invocations | Pdus.v |
| partial writes of the serializers that can panic | Crash.v |
| derived `==` of every type that has one (PduState aside) | Equality.v |
| Vector3Float operators, dot, cross, magnitude, normalize | Floats.v |
| `calculate_dis_timestamp` (both copies) | Floats.v |
| examples/*.rs: echo server and client, radio server and client | Examples.v |
| the programs in book/src/guides and in the documentation of src/lib.rs | Guide.v |
| the interface `bytes::Buf` (`deserialize<B: Buf>`), buffers in one and in several pieces | Buf.v |
| the clock readings in `Default`, `new` and `deserialize_body` | Clock.v |
| memory requested before reading (`vec![0; n]`, `with_capacity`) | Memory.v |

## What is not modelled, and simplifications
* The clock and the network: a clock reading is an argument; in the examples each `recv` is an input and each `send` an output. Address parsing, `bind`/`connect`, tokio's scheduler and printed text are left out.
* `usize` arithmetic on lengths is unbounded (a list of more than 2^63 bytes cannot exist).
* Memory exhaustion and stack overflow.
* Enumeration variants: a variant is its discriminant (C18 shows that discriminants are distinct); its name is given by a table, EnumNames.v (C82).
* `String`s are their bytes, not required to be UTF-8 (more general than Rust).
* NaN payloads and signs produced by arithmetic (Rust leaves them unspecified); on the wire floats are bit patterns and NaNs do survive.
* `DISError`: the codecs use a two-variant type (only `InvalidHeader` and `PduSizeExceeded` are constructed by the library), which ErrorText.v embeds in the full nine-variant type with its texts; ErrorSource.v adds the `source` errors (which do not appear in the texts). `PduState` appears only inside an error.
* `Clone`, `Debug` of structures, and the `PduBody` trait (no implementations).
* The build profile (overflow checks on or off) is a parameter `m : profile` where it matters (record-specification elements, timestamp); theorems quantify over both.

## Findings (all machine-checked)
1. Lists never decode: un-annotated `Vec`/`String`/`Option` fields come back empty and their bytes stay unread (C12, C13, C40).
2. Every decoder panics on short input; a truncated radio PDU kills the example server (C14, C39).
3. The 8192-octet limit is not enforced; only 65535 is (C10).
4. EntityState announces 144 bytes and emits 133; its marking is decoded as the decimal number of remaining bytes (C08, C28, C42).
5. AggregateState reads its datum count from list bytes (C45).
6. Variable datum padding is not counted in the length and not skipped on decoding; a decoded datum is prefixed with zeros (C24).
7. RecordSpecificationElement can panic or truncate when counts disagree (C25, C46).
8. SimulationIdentifier's reference number and DeadReckoningParameters' other parameters are lost (C26, C27).
9. GridDataRecord and VariableTransmitterParameters read narrower fields than they write (C30, C31).
10. The timestamp reads the clock three times (torn reads) and is not in the format of IEEE 1278.1 (C34).
11. `normalize` returns None for tiny non-zero vectors and a zero vector for huge ones; `v x v` need not be zero (C36).
12. Six of the PDU types that PduType names have no class (46-50, 63); a datagram of such a type is refused by all (C51).
13. A decoder checks nothing of the header but the type: wrong length, family and version are accepted, and in a zero-filled receive buffer truncation goes unnoticed (C53, C54).
14. A panic in serialize (record specifications) leaves a torn datagram in the caller's buffer (C55).
15. In 29 classes two different PDUs can share a datagram: miscounted lists, absent entries, unwritten fields (C56).
16. Comparing decoded vectors with `==` is not comparing what was sent: a NaN component never equals itself, and the two zeros are equal although their bytes differ (C59).
17. A release build can send a SetRecordReliable PDU that release builds decode and debug builds panic on (C60).
18. `VariableDatumRecord::deserialize` allocates the announced size before reading: eight bytes request 512 MiB (C68).
19. The guides' programs do not compile as printed; the receiving one spins for ever on an empty datagram; 66, not 72, PDUs are implemented (C69).
20. Eight pairs of classes have the same fields, so one byte (for Resupply Offer and Received one bit) turns a datagram of one into a datagram of the other (C70).
21. `FieldDeserialize` is implemented for PduHeader only, so `define_pdu!` cannot be used with LiveEntityPduHeader as it is (C75).
22. A PDU with a wrong record count is sent without complaint and panics every receiver; so does a receive buffer smaller than the PDU (C76).
23. Relaying an EntityState replaces its marking by a number; after three relays the marking of every entity is "5" and its capabilities are gone (C77).
24. The fixed parts of all 66 classes have the standard's layout, except EntityState, whose marking must be exactly 11 bytes to be standard-conforming; from a conforming peer every marking is received as "15" (no variable parameters) and the capabilities are lost (C78). IFF always includes layer 2. Of the records in lists, AcousticBeamData and LinearSegmentParameter are one and two bytes too long.
25. A receiver that decodes successive PDUs from one buffer gets the PDUs sent only if none has list elements; otherwise it takes the element bytes for further PDUs, so the data of a Signal PDU can inject PDUs that nobody sent (C79). Cutting by the length field is safe for PDUs that announce their size, so for the 48 classes with exact lengths (C08), not for EntityState.
26. Over a byte stream the length field is all a receiver has; it works for PDUs that announce their size however the stream is cut up, but one new EntityState (announces 144, sends 133) desynchronises the receiver and three Fire PDUs later blocks it for ever (C80).
27. A refused `deserialize` removes the header from the buffer: trying classes in turn on the same buffer finds a PDU only at the first try, panics on short datagrams and can find PDUs that nobody sent (C81).
28. 24 (and more) enumerations have as default a variant with a definite meaning: unknown numbers are silently read as that (an unknown AcknowledgeFlag as `CreateEntity`, an unknown EmitterName as `_12456X`, an unknown VariableRecordTypes as `EntityIDList`; C82).
29. Appearance fields wider than one bit are declared as single flags: `LandPlatformAppearance::from_u32` refuses destroyed vehicles, and an areal object that is, say, 50% complete decodes with an empty appearance (C84).
30. A receiver that drops PDUs with older timestamps is right within an hour, but after the full hour it drops everything until the same time of the next hour, and drops updates whose construction straddles a full minute (C85).
31. Threads sharing a buffer behind a mutex: one PDU that makes `serialize` panic silences all of them, and recovering the poisoned lock leaves a torn datagram that makes the buffer unframeable (C86).
32. A log file of PDUs survives crashes at any byte if it is truncated behind the last complete PDU when it is opened; without that one torn PDU hides everything written afterwards (C88).
33. The status record does not know which PDU it belongs to: setting FTI and AII both to 1 makes DTI, RAI and IAI read 0, and setting DTI sets FTI and AII to its digits (C89).
34. Requests repeated over an unreliable network are carried out exactly once if the server remembers sender and request number, but an ActionRequest arrives without its datum records while its counts promise them (C90).

## Testing the theorems
seeded/LOG.jsonl records mutations of the model, made in a scratch copy, and which theorems rejected them.

## Plan per property
* **C01** PDU header round-trip: Header.v model of the 12-byte codec; equational proof by composing primitive get/put laws.
* **C02** PDU header wire layout: Spec lists the 12 bytes with div/mod arithmetic; proof by computation on symbolic fields.
* **C03** Header decoding is total on 12 bytes and normalises unknown codes: Reader composition lemma (`exact_reader`), enum decode lemma; short case is an explicit Panic outcome.
* **C04** get_pdu_type classification: Case split on length; uses C03.
* **C05** Typed deserialization accepts exactly its own PDU type: Generic in the field list of define_pdu!; also for all 66.
* **C06** PDU classes carry the SISO/IEEE type numbers and families: Finite table check lifted with Forall/NoDup; at-most-one from C05.
* **C07** Serialization appends and stamps the header: Generic in the field list.
* **C08** Header length equals bytes emitted: Generic theorem for codecs with exact lengths, 66-class classification, `_refuted` witnesses for the others.
* **C09** Oversized PDUs are refused without touching the buffer: Generic in the field list; N arithmetic on u16::try_from.
* **C10** Which size limits are enforced; the 8192-octet limit is not: `_refuted` witness (SignalPdu with 9000 data bytes) plus the true bound 65535.
* **C11** Fixed-layout PDU round-trip: Induction over the field list with per-codec round-trip lemmas; classes listed in Spec.
* **C12** Round-trip of variable-length PDU classes: `_refuted` witness and exact characterisation for trailing lists by induction.
* **C13** Back-to-back PDU streams: Induction over the list of PDUs.
* **C14** When decoding arbitrary bytes panics: `_refuted` witness and iff-characterisation from exact readers.
* **C15** Serialization is idempotent: Generic in the field list.
* **C16** Constructors produce well-formed PDUs: Clock is an explicit argument; generic in the field list.
* **C17** Default lengths match the published table: Finite table by vm_compute over the 66 definitions.
* **C18** Enumeration codecs: Generic theorem over enum specs + forallb over the 402 generated specs.
* **C19** Decode-encode-decode stability: From C11 plus exact-reader totality; byte-exactness by per-codec canonicity lemma.
* **C20** PDU status record bit layout: Bit-level model of the bitfield, spec via N.testbit; finite sweep over 256 bytes lifted by forallb_forall.
* **C21** Bit-flag fields: Bit masks on N, N.land laws.
* **C22** Record types: round-trip, length, frame: One generated Coq record and codec per Rust struct, hint-driven proofs. Prop_Lengths.v: the constants `SerializedLength::LENGTH`.
* **C23** Counted records: Round-trip iff counts match.
* **C24** Variable datum records: N arithmetic on div_ceil and mod 64; `_refuted` witnesses; exact equation.
* **C25** Record specification elements: Explicit overflow profile parameter; `_refuted` witnesses; iff-characterisation.
* **C26** SimulationIdentifier reference number survives the wire: `_refuted` + exact equation.
* **C27** Dead-reckoning other parameters survive the wire: `_refuted` + exact equation.
* **C28** Entity marking occupies 12 bytes and round-trips: `_refuted` + iff.
* **C29** Transmitter modulation parameters: Instance of the generic length attribute; boundary theorem.
* **C30** Gridded data records: `_refuted` + exact equations.
* **C31** Variable transmitter parameters: `_refuted` + length theorem.
* **C32** Header-less decoding agrees with full decoding: Generic in the field list.
* **C33** Live-entity header: As C01/C03.
* **C34** DIS timestamp arithmetic: Flocq binary32 model of the float arithmetic; three clock readings as arguments.
* **C35** Size helper functions: Direct.
* **C36** Vector3Float operations: Flocq binary32 with fma.
* **C37** Encoding is injective: Corollary of C11.
* **C38** Echo example end to end: State machine over datagram histories, induction.
* **C39** Radio example dispatch: Model of deserialize_pdu; iff-characterisation; `_refuted`.
* **C40** Generic field containers: Higher-order over codecs.
* **C41** Primitive big-endian codecs: Induction on byte width.
* **C42** Decoding is local: a reader is local if what it consumed determines its result and strict prefixes underflow; closed under sequencing, counted lists and the macro, hence every class but EntityState (Prop_Local.v); `_refuted` for EntityState.
* **C43** Field offsets on the wire: Spec offset tables, slices of the emitted bytes and decoding of arbitrary bytes.
* **C44** Unimplemented enumerations always panic: Model returns Panic.
* **C45** AggregateState misalignment: `_refuted` + exact misread.
* **C46** When serialization panics: classification of the 66 classes, exact panic condition for the two with record-specification elements.
* **C47** A fresh PDU survives the wire: per-class computation of the emitted bytes, generic decode lemma for the trailing bytes.

* **C48** Histories of calls: operational semantics of call sequences (SpecHistory), induction over the history; uniqueness of the cut by the length field; `_refuted` for EntityState.
* **C49** Relaying: per-field stability lemmas (read, write, read), induction over the field list; `_refuted` for the lossy classes.
* **C50** Record constructors: generated model of each `new` and a theorem equating the encoding of the result with the concatenated encodings of the arguments.
* **C51** Dispatch: table of 66 types is duplicate free; combined with C05; finite sweep over type codes for the unclaimed ones.
* **C52** Error texts: model of Display with decimal formatting; injectivity via decimal printing lemmas and distinct prefixes.
* **C53** Header ignored: case analysis of the decoder generic in the class.
* **C54** Zero-filled buffers: C14 characterisation of panics plus the maximal default size; Prop_ZeroFilled.v: all classes, lower bounds on what the four list-decoding classes need.
* **C55** Crash points of serialize: a second, byte-by-byte model of the serializers that can panic (Crash.v), proved to agree with the first; induction over the record elements.
* **C56** The datagram determines the PDU: self-delimiting records (a value's encoding is recognised in front of anything), induction over lists, field-by-field peeling of bodies; per-class conditions in SpecInform.v with a collision for each class that needs one.
* **C57** Fresh datagrams: closed computation of each class's default body against a separate byte-level table (SpecFresh.v), symbolic in timestamp and buffer.
* **C58** Length-delimited records: one `takes` specification (SpecFresh.v) for the direct, length-aware and Option readers.
* **C59** Equality: derived `==` is transcribed field by field; floats use Flocq's comparison, characterised on bit patterns (`same32`, `same64` of SpecEquality.v).
* **C60** Build profiles: `agree debug release` (SpecProfiles.v) is a congruence for the reader and writer combinators; the two classes follow field by field.
* **C61** Fault containment: the wire maps of C43 extended by the header (SpecFaults.v); locality of slices.
* **C62** User classes: the macro model is generic in the class description, so the contract of a field type (SpecMacro.v: fixed_size, measured, unread) is stated on its trait functions and the theorems quantify over all class descriptions; induction over the field list.
* **C63** Record layouts: the head of each record type as a wire map (SpecLayout.v, generated from the Rust structs by tools/gen_spec_layout.py), the list as the concatenation of its elements' encodings; encoding and decoding proved against both, with the C43 lemmas for the head and induction over the count for the list.
* **C64** Whole datagrams: `layouts` adds to each class's wire map (C43) what follows it; the emitted bytes are proved equal to header, map and tail by combining C43 (the map tiles its range) with a walk over the field list for the tail.
* **C65** Decoding as an equivalence: existence from C14 (exactly the bytes needed), the numbers from C43/C54, uniqueness because the map of numbers is injective (ordinary classes: through the encoding; the others: field by field) and decimal notation is unique. The sized tails are proved equal to the bytes that follow.
* **C66** The project's own tests as theorems for every clock reading: lengths by evaluation per class (the literals of the tests copied to SpecTests.v), round trips from C47 and C28, get_pdu_type from C01/C04, vectors by evaluation of Flocq's binary32. `cast_to_any` (std::any) is left out.
* **C67** Clock.v makes the clock readings of `Default`, `new` and `deserialize_body` explicit; C34 shows they never panic, C57 gives the fresh datagrams, and `serialize_cases` the independence from the header.
* **C68** Memory.v repeats the two decoders that allocate up front with the request visible (and proves them equal to the decoders); induction over the reading loops.
* **C69** Guide.v models the programs of the book and of the crate documentation; from C11, C14, C51, C57 and an induction on the loop count.
* **C70** Exactly-which by a finite comparison of names and default lengths over all pairs; wire and relabelling theorems generic in two classes with equal field lists.
* **C71** Defaults of the records: one predicate (written as, declared length, read back before any rest) for each of the 61 types, by computation with the rest symbolic.
* **C72** Buf.v: programs over the two operations of `Buf`, lawful buffer types. Every decoder of the model is shown to be such a program (records one by one, PDU bodies by induction on the field list); a program cannot tell two lawful buffers with the same bytes apart; the one-piece and the several-pieces buffer are lawful.
* **C73** ErrorSource.v: `source()` and chains of errors; from C52 and an induction on the layers.
* **C74** SpecRecover.v: which lists follow the fixed part and which reader returns an element; from C64 (layout of the datagram), C12 (what deserialize leaves) and the round-trips of the records. The irregular classes from C28, C45, C29 and the tail of the layout (Prop_Recover.v, Prop_RecoverTx.v, Prop_RecoverMine.v).
* **C75** MacroHeader.v makes the header type an argument of the macro again (PduMacro.v fixes it to PduHeader; C75_with_PduHeader shows that the two models agree); the promises of a header type are the record keeps_promises in SpecOwnHeader.v; as C62 otherwise (Prop_OwnHeader.v, which also has the layout and constructors of the live-entity header for C33).
* **C76** SpecExercise.v: a schedule is a list of sends and deliveries (datagram number, receive buffer size); induction over the schedule, the datagrams in the air being the state; one delivery from C42, C14 and C61 (Prop_Exercise.v). Prop_Numbers.v: every number of the field maps fits its bytes.
* **C77** SpecRelays.v: C76's schedules with a third step, a relay; a chain of relays is the iteration of one. Invariant: every datagram in the air was serialized from a sendable PDU whose numbers are those of a PDU originated before (RelaysFacts.v, Prop_Relays.v). Chains: the first relay's datagram is a fixed point (C49, extended to the classes with a SimulationIdentifier); for EntityState the marking is the decimal length of the rest of the datagram, so its length contracts to one digit and then to 5.
* **C78** SpecIeee.v: the standard's PDU and record tables as literals (standard's field name, API field, octets), written down independently of the repository; Prop_Ieee.v compares them by computation with the wire maps of C43, whose encode and decode theorems then apply; EntityState's rest from C64 and C28.
* **C79** SpecBundle.v: two receiving programs over the modelled API (decode successively; cut by length). Prop_Bundle.v: one step of the successive receiver from C12 (what a decoder consumes), exactness of the announced length from C49; induction over the bundle; the cutting receiver from the frames of C14 and the delivery lemma of C76; EntityState by evaluation.
* **C80** SpecStream.v: the receiver of C79 that cuts by length, fed with chunks. Prop_Stream.v: taking a buffer apart commutes with appending (induction on the length), so the chunks do not matter; prefixes of a sequence of frames by induction over the PDUs; what is left pending is never a complete PDU.
* **C81** SpecTries.v: receivers that try a list of classes, on copies or in place. Prop_Tries.v: induction over the list, each try from C05; distinct types from C51.
* **C82** EnumNames.v: names of all variants. SpecEnumNames.v: names and numbers of SISO-REF-010 from memory. Prop_EnumNames.v: the two generated tables agree (computation over the 402 enumerations), uniqueness gives the bijection; decoding from C18.
* **C83** DynPdu.v: `dyn Pdu`, its methods, `downcast_ref`, programs that call them. Prop_Dyn.v: an invariant of the run (same class, same user header fields, body kept up to length preparation), by induction on the calls; serialize is a function of what the invariant keeps.
* **C84** Flags.v: named flags and the set operations of bitflags. SpecFlags.v: expressions, their set of names, and the standard's appearance fields. Prop_Flags.v: induction on expressions over single bits; acceptance by C21 and bit arithmetic.
* **C85** SpecStale.v: a sender making PDUs at instants and a receiver keeping the latest timestamp, both written with the modelled API (nothing new of the code is modelled). Prop_Stale.v: the kept PDU has the greatest timestamp of those received (induction over arrivals, decoding by C11), and C34 bounds the error of timestamps.
* **C86** Threads.v: threads behind a mutex with poisoning, the scheduler a list of thread numbers. SpecThreads.v: what each PDU gives alone, calls of one thread, pieces that arrive. Prop_Threads.v: induction on the schedule; framing from C48, torn datagrams from C55.
* **C87** SpecQueue.v: producer and consumer turns on a buffer, written with the modelled API, and the queue it should be. Prop_Queue.v: refinement, by induction on the turns (the buffer is the concatenation of the datagrams of the queue's PDUs); decoding from C12, exact sizes from C49.
* **C88** SpecLog.v: sessions that truncate, append and crash at a byte, and the PDUs that survive. Prop_Log.v: any file is a part that is taken completely and a tail no reader can use, so appending after the truncation concatenates what is read (induction on the file, C80's lemmas); the history by induction on the sessions.
* **C89** SpecStatus.v: setter calls, the bits each owns by the standard, last writer. Prop_Status.v: one call from C20, histories by induction, equality of records bit by bit; the enumerations as bit fields by deciding over their discriminants.
* **C90** SpecHandshake.v: clients, server and network as events on a world of datagrams, written with the modelled API. Prop_Handshake.v: an invariant (every datagram is that of a request that was sent, or answers one that was carried out; keys are distinct) kept by every event; decoding from C12 and C05.
