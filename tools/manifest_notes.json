{
 "C08": {
  "note": "C08_length_is_bytes_emitted covers the 48 classes with correct lengths, C08_emitted_size all 66; C08_length_refuted is the counterexample to the unrestricted claim."
 },
 "C10": {
  "note": "The limit of 8192 is not enforced (C10_max_size_refuted); the bounds that do hold are proved."
 },
 "C12": {
  "note": "Exact behaviour C12_list_roundtrip_exact; the naive round-trip is refuted."
 },
 "C13": {
  "note": "Proved for fixed-layout classes; refuted for classes with non-empty lists (C13_stream_refuted)."
 },
 "C14": {
  "note": "C14_panics_iff and C14_bytes_read cover every class."
 },
 "C34": {
  "note": "Rests on the standard library's real numbers (see DESIGN.md)."
 },
 "C36": {
  "note": "Rests on the standard library's real numbers (see DESIGN.md)."
 },
 "C48": {
  "note": "Classes with exact lengths; C48_framing_refuted is the counterexample for EntityState."
 },
 "C49": {
  "note": "Exceptions are refuted by C49_entity_state_refuted and C49_reference_refuted."
 },
 "C50": {
  "status": "proved",
  "note": "One conjunct per constructor; argument-less ones in C50_empty_constructors; record specification in C50_record_specification."
 },
 "C51": {
  "status": "proved",
  "note": "'Every named type has a class' is refuted by C51_all_types_refuted."
 },
 "C52": {
  "status": "proved",
  "note": "The stronger claim about all fields is refuted by C52_field_text_refuted."
 },
 "C53": {
  "status": "proved",
  "note": "'Length, family or version are checked' is refuted by C53_header_check_refuted."
 },
 "C54": {
  "status": "proved",
  "note": "C54_zero_filled for the ordinary classes, C54_every_class for all 66; C54_list_decoding_refuted is the counterexample for the four classes that decode lists."
 },
 "C55": {
  "status": "proved",
  "note": "Other classes never panic on serialization (C46). 'All or nothing' is refuted by C55_all_or_nothing_refuted."
 },
 "C56": {
  "status": "proved",
  "note": "Conditions are the table `conditions` of SpecInform.v; C56_conditions_needed exhibits a collision for every class of the table. Extends C37 (fixed-layout classes) to all classes."
 },
 "C57": {
  "status": "proved",
  "note": "EntityState emits 133 bytes and announces 144 (C08)."
 },
 "C58": {
  "status": "proved",
  "note": ""
 },
 "C59": {
  "status": "proved",
  "note": "Floats through Flocq's Beqb. 'Reflexive' and 'equal values have equal bytes' fail for vectors: C59_vectors_refuted."
 },
 "C60": {
  "status": "proved",
  "note": "The converse direction is refuted by C60_release_to_debug_refuted. The timestamp does not overflow in either profile (C34)."
 },
 "C61": {
  "status": "proved",
  "note": "Enumeration and flag numbers can absorb a corruption (unknown codes become the default)."
 },
 "C62": {
  "status": "proved",
  "note": "With header PduHeader; other header types in C75. Rust rejects duplicate field names; the annotation theorems assume distinct names."
 },
 "C63": {
  "status": "proved",
  "note": "Fixed-size records: C22; datum records: C24; record specifications: C25."
 },
 "C64": {
  "status": "proved",
  "note": "Element encodings inside the lists: C22, C24, C25, C30, C63."
 },
 "C65": {
  "status": "proved",
  "note": "C65_decode_iff covers the 59 classes made of numbers and (never read) lists; one theorem each for the seven irregular classes. C65_map_complete: no number of an ordinary class is missing from its map."
 },
 "C66": {
  "status": "proved",
  "note": "The 66 cast_to_any tests concern std::any::Any and are not modelled. C66_vectors uses the standard library's real-number axioms through Flocq; the others are closed."
 },
 "C67": {
  "status": "proved",
  "note": "C67_header_independent is closed; the theorems that mention the clock use the standard library's real-number axioms through Flocq."
 },
 "C68": {
  "status": "proved",
  "note": "The claim that requests are bounded by the input is refuted (C68_bounded_by_input_refuted); the bounds that do hold are proved. Growth of vectors by push is not modelled."
 },
 "C69": {
  "status": "proved",
  "note": "The guides as printed do not compile against the crate (deserialize takes &mut, EntityId::new takes arguments); modelled is what they say. Two statements of the guides are refuted (C69_error_refuted, C69_72_refuted)."
 },
 "C70": {
  "status": "proved",
  "note": "The book's claim that no two PDUs have the same fields is refuted by the exact list of pairs."
 },
 "C71": {
  "status": "proved",
  "note": "The expected bytes are written by hand in tools/gen_defaults.py."
 },
 "C72": {
  "status": "proved",
  "note": "The several-pieces buffer follows bytes::Chain and the default get_* of the bytes crate."
 },
 "C73": {
  "status": "proved",
  "note": "thiserror's derived source() is modelled by hand from the attributes."
 },
 "C74": {
  "status": "proved",
  "note": "Which classes and lists the general theorems cover is C74_classes; the readers of the elements are the crate's own, for variable data followed by dropping the zeros and the padding (SpecRecover.mended_datum). The irregular classes and the optional lists of MinefieldData and the data of GriddedData have their own theorems. Grid data of 8 or 16 bit values and irregular axes end with padding that takes all that follows (C30): not recoverable."
 },
 "C22": {
  "note": "C22_marking_length_refuted: EntityMarking is the only declared LENGTH that is wrong."
 },
 "C75": {
  "status": "proved",
  "note": "The crate implements FieldDeserialize for PduHeader only; for LiveEntityPduHeader the missing implementation by its own deserialize is assumed."
 },
 "C77": {
  "status": "proved",
  "note": "Proved for all schedules with relays (C77_relays) and chains of any length (C77_chain, C77_entity_state_chain); examples show that the hypotheses are met, that the header length does change and that two relays are not enough for an EntityState."
 },
 "C78": {
  "status": "proved",
  "note": "The standard's layouts are the literal tables of SpecIeee.v, written down independently of the repository (but without the standard at hand); C78_layouts compares them with the field maps of C43. C78_records_refuted: two record types do not have the standard's layout."
 },
 "C79": {
  "status": "proved",
  "note": "C79_in_sequence_iff, C79_elements_taken_for_pdus and C79_phantoms for the receiver in sequence; C79_by_length, C79_by_length_exact and C79_by_length_refuted for the receiver by length. Both receivers are programs over the modelled API (SpecBundle.v); examples show that the hypotheses are met."
 },
 "C80": {
  "status": "proved",
  "note": "The receiver is a program over the modelled API (SpecBundle.v, SpecStream.v). C80_received_so_far is the claim at every moment; examples show a concrete stream in three chunks and a blocked receiver."
 },
 "C81": {
  "status": "proved",
  "note": "Both receivers are programs over the modelled API (SpecTries.v). C81_on_copies compares with the receiver of C76; C81_in_place and its corollaries; C81_in_place_refuted and C81_in_place_phantom are concrete failures."
 },
 "C82": {
  "status": "proved",
  "note": "EnumNames.v holds the variant names (generated from the source text separately from the discriminants; C82_variants checks the two against each other). SpecEnumNames.v is set down from knowledge of SISO-REF-010, which was not at hand; it covers 662 of 9070 variants. C82_unknown_misread lists enumerations whose default is not an 'other' value."
 },
 "C83": {
  "status": "proved",
  "note": "DynPdu.v models the trait object; the concrete type (TypeId) is the position of the class in the list of classes. C83_type_refuted is the counterexample to relying on the header's type."
 },
 "C84": {
  "status": "proved",
  "note": "The set operations are those of the bitflags crate, modelled from its documentation (Flags.v). C84_land_accepts and C84_object_drops are the losses; the positions of the standard's fields are from memory of SISO-REF-010."
 },
 "C85": {
  "status": "proved",
  "note": "For classes of fixed layout (fixed_layout, as in C11). Updates of the positive theorems are made at one clock instant (clean); C85_torn_refuted and C85_rollover_refuted show what happens otherwise. Rests on the standard library's real number axioms through C34."
 },
 "C86": {
  "status": "proved",
  "note": "Threads.v models std's Mutex (exclusion and poisoning); a turn of a thread is one critical section. What a panicking serialize leaves behind is a parameter in the positive theorems and that of C55 in C86_recover_refuted."
 },
 "C87": {
  "status": "proved",
  "note": "Ordinary classes (all but the special ones of C22-C31, C45), PDUs without list elements (plain). C87_elements_refuted is the counterexample with elements; producer and consumer are programs over the modelled API (SpecQueue.v)."
 },
 "C88": {
  "status": "proved",
  "note": "Sendable PDUs that announce their size (loggable; C79_by_length_exact gives it for classes with exact lengths). C88_history holds for any initial file. C88_without_truncating is the counterexample without the truncation, for all later sessions. The log writer and reader are programs over the modelled API (SpecLog.v); the file system is a list of bytes of which a crash keeps a prefix of what was appended."
 },
 "C89": {
  "status": "proved",
  "note": "The methods that modular-bitfield generates are modelled from the crate's documentation (its source is not in /repo): Header.v for getters and setters, Status.v for the others. `allowed`: the raw setter set_bit4_5 is given a two-bit value; C89_checked says what happens otherwise."
 },
 "C90": {
  "status": "proved",
  "note": "Generic in the protocol (SpecHandshake.v: classes, key, answer; `sound` says the protocol can work), with instances shown sound: CreateEntity, RemoveEntity, StartResume with Acknowledge, their reliable variants with AcknowledgeReliable, and ActionRequest/ActionResponse. Server and clients are programs over the modelled API."
 }
}