{
 "claims": [
  {
   "property": "C01",
   "status": "proved",
   "theorems": [
    "C01_hashes_total_exact"
   ],
   "note": "For every hash function, file, positive block size and sequence of calls with distinct lists of valid ranges."
  },
  {
   "property": "C02",
   "status": "proved",
   "theorems": [
    "C02_never_wrong"
   ],
   "note": "Range lists must be distinct list objects; with one object shared between calls the property is false (C06_refuted_shared_list)."
  },
  {
   "property": "C03",
   "status": "proved",
   "theorems": [
    "C03_isolation"
   ],
   "note": ""
  },
  {
   "property": "C04",
   "status": "proved",
   "theorems": [
    "C04_reset",
    "C04_resume",
    "C04_failures_are_short_reads"
   ],
   "note": ""
  },
  {
   "property": "C05",
   "status": "partial",
   "theorems": [
    "C05_single",
    "C05_other_raises",
    "C05_exactly_once_refuted"
   ],
   "note": "False of the code: two registrations under the same description are accepted by hash() (last wins). The rest is proved."
  },
  {
   "property": "C06",
   "status": "partial",
   "theorems": [
    "C06_lists_are_consumed",
    "C06_refuted",
    "C06_refuted_reuse",
    "C06_refuted_shared_list"
   ],
   "note": "False of the code: hashes() empties the caller's lists; exact effect proved."
  },
  {
   "property": "C07",
   "status": "partial",
   "theorems": [
    "C07_outcome",
    "C07_malformed_raises_partial",
    "C07_negative_block_raises",
    "C07_zero_block_diverges",
    "C07_refuted_zero_block",
    "C07_refuted_reversed"
   ],
   "note": "False of the code: block_size 0 and a reversed range next to another finger can make it never end. C07_outcome covers every request: it has ended within an explicit number of rounds, returning only if all ranges are readable and raising only if not, or it never ends, which needs one of these two causes."
  },
  {
   "property": "C08",
   "status": "proved",
   "theorems": [
    "C08_total_position_independent"
   ],
   "note": ""
  },
  {
   "property": "C09",
   "status": "proved",
   "theorems": [
    "C09_sections_follow_layout"
   ],
   "note": ""
  },
  {
   "property": "C10",
   "status": "proved",
   "theorems": [
    "C10_sections_wellformed"
   ],
   "note": ""
  },
  {
   "property": "C11",
   "status": "proved",
   "theorems": [
    "C11_authentihash",
    "C11_unparsable"
   ],
   "note": "With any other hashers registered before and after; a later registration must not reuse the description 'authentihash'."
  },
  {
   "property": "C12",
   "status": "proved",
   "theorems": [
    "C12_sensitive",
    "C12_insensitive"
   ],
   "note": "Sensitivity is stated on the byte sequence fed to the hash function."
  },
  {
   "property": "C13",
   "status": "partial",
   "theorems": [
    "C13_refuted",
    "C13_same_shift_partial"
   ],
   "note": "The property is false of the code: moving the certificate table shifts bytes (C13_refuted). Proved: agreement at every offset with the same number of omitted bytes before it."
  },
  {
   "property": "C14",
   "status": "proved",
   "theorems": [
    "C14_walk_safe",
    "C14_no_table"
   ],
   "note": ""
  },
  {
   "property": "C15",
   "status": "proved",
   "theorems": [
    "C15_round_trip"
   ],
   "note": "Also when the last entry is not padded."
  },
  {
   "property": "C16",
   "status": "proved",
   "theorems": [
    "C16_interleaving",
    "C16_hashes_keeps_content",
    "C16_signatures",
    "C16_verifying"
   ],
   "note": "For the certificate table generator and for iter_signed_datas as a generator resumed step by step; fingerprinting and verifying keep the content of the file."
  },
  {
   "property": "C17",
   "status": "proved",
   "theorems": [
    "C17_enumeration",
    "C17_determined",
    "C17_top_level"
   ],
   "note": "Iteration over the generator of the certificate table run to its end; the caller does not move the file position in between (C16 covers that for the table). Stated over paths in the tree of entries and nested signatures."
  },
  {
   "property": "C18",
   "status": "proved",
   "theorems": [
    "C18_ignored_errors"
   ],
   "note": "Both iterations run to their end."
  },
  {
   "property": "C19",
   "status": "proved",
   "theorems": [
    "C19_modes",
    "C19_modes_alone"
   ],
   "note": "For files whose iteration ends without an error and yields something (otherwise C21), and supplied names known to hashlib (otherwise C22). For 'any'/'best' exceptions outside Exception are excluded. C19_modes: verdicts in sequence; C19_modes_alone: verdicts of each signature verified alone, for contexts that can be shared (e.g. the default ones)."
  },
  {
   "property": "C20",
   "status": "proved",
   "theorems": [
    "C20_outcome",
    "C20_outcome_alone"
   ],
   "note": "Same hypotheses as C19."
  },
  {
   "property": "C21",
   "status": "partial",
   "theorems": [
    "C21_nothing_found",
    "C21_no_signature",
    "C21_iteration_error",
    "C21_refuted"
   ],
   "note": "Never reported as verified. AuthenticodeNotSignedError (ignore_parse_errors=True) holds when the iteration ended with SignedPEParseError; if all entries fail with AuthenticodeParseError or other errors, that error is raised also with ignore_parse_errors=True (C21_refuted)."
  },
  {
   "property": "C22",
   "status": "partial",
   "theorems": [
    "C22_compared_partial",
    "C22_unknown_name",
    "C22_refuted"
   ],
   "note": "Holds for dicts whose keys are all known to hashlib (with C20_outcome: the verdicts are those with these hashes). False in general: any other key makes verification raise AttributeError."
  },
  {
   "property": "C23",
   "status": "partial",
   "theorems": [
    "C23_refuted",
    "C23_unchanged_partial"
   ],
   "note": "False: computed hashes are added to the caller's dict, and reusing it makes the verification of another properly signed file fail. Proved instead: no entry is changed, only hashes of the file are added, none if all accepted algorithms are supplied."
  },
  {
   "property": "C24",
   "status": "proved",
   "theorems": [
    "C24_explained",
    "C24_explained_signature",
    "C24_determined"
   ],
   "note": "Exceptions outside Exception (KeyboardInterrupt) pass, as in the code."
  },
  {
   "property": "C25",
   "status": "proved",
   "theorems": [
    "C25_integrity"
   ],
   "note": "Every hash function, file, signature, context; expected hash given or computed from the file."
  },
  {
   "property": "C26",
   "status": "proved",
   "theorems": [
    "C26_authenticity"
   ],
   "note": "The chain building itself is the external validator, of which nothing is assumed."
  },
  {
   "property": "C27",
   "status": "proved",
   "theorems": [
    "C27_digest_errors",
    "C27_computed"
   ],
   "note": "Computed hashes need enough steps of the hashing loop, which exist for every file (C27_computed)."
  },
  {
   "property": "C28",
   "status": "proved",
   "theorems": [
    "C28_strict",
    "C28_strict_error"
   ],
   "note": "Exceptions of the external functions that are not an Exception (such as KeyboardInterrupt) pass through."
  },
  {
   "property": "C29",
   "status": "partial",
   "theorems": [
    "C29_refuted",
    "C29_unreadable_refuted",
    "C29_permitted_as_strict",
    "C29_permitted_partial"
   ],
   "note": "False in two situations, both shown: one context object for both purposes, and stores that cannot be read. Proved for different contexts and readable stores."
  },
  {
   "property": "C30",
   "status": "proved",
   "theorems": [
    "C30_ignored"
   ],
   "note": "The whole run is equal: result, contexts, stores and file."
  },
  {
   "property": "C31",
   "status": "proved",
   "theorems": [
    "C31_without_countersignature",
    "C31_with_countersignature"
   ],
   "note": "For different context objects; the same object for both is the counterexample C29_refuted."
  },
  {
   "property": "C32",
   "status": "partial",
   "theorems": [
    "C32_refuted",
    "C32_lifetime_partial"
   ],
   "note": "False: an earlier candidate without the lifetime usage sets the time for later ones. Proved when all named certificates that verify the signature have the usage."
  },
  {
   "property": "C33",
   "status": "partial",
   "theorems": [
    "C33_refuted",
    "C33_independent_partial"
   ],
   "note": "False for a verification_context passed by the caller together with countersignatures. Proved for default contexts and for shared contexts without countersignatures to check."
  },
  {
   "property": "C34",
   "status": "proved",
   "theorems": [
    "C34_trust_anchors"
   ],
   "note": ""
  },
  {
   "property": "C35",
   "status": "partial",
   "theorems": [
    "C35_refuted",
    "C35_returned_chain_partial",
    "C35_remaining_usages"
   ],
   "note": "False for extended_key_usages given as a one-shot iterator (C35_refuted: the validator exhausts it, the trust list then sees no usages). Proved for usages that can be read twice (C35_returned_chain_partial), and for all usages with the usages that are left (C35_remaining_usages)."
  },
  {
   "property": "C36",
   "status": "partial",
   "theorems": [
    "C36_refuted",
    "C36_chains_partial"
   ],
   "note": "Refuted as stated: a candidate whose key cannot be loaded aborts the search although another candidate verifies. Proved for readable stores, repeatable usages and a signing time applying to all or none of the candidates: Ok = chains of exactly the verifying candidates in order, first error, or SignerInfoVerificationError; the first foreign exception propagates. C65_signer covers usages that can be read once and times that apply to some candidates only."
  },
  {
   "property": "C37",
   "status": "proved",
   "theorems": [
    "C37_equivalence_and_hash",
    "C37_names",
    "C37_names_hashable",
    "C37_hashable"
   ],
   "note": "Equality, symmetry, transitivity, hash compatibility for certificates and names; exactly which of them can be hashed."
  },
  {
   "property": "C38",
   "status": "partial",
   "theorems": [
    "C38_refuted",
    "C38_first_attributes_partial",
    "C38_single_valued_partial"
   ],
   "note": "False as stated: only the first attribute of a multi-valued RDN is compared (certificates.py:332). Proved for the first attributes and, in full, for single-valued names."
  },
  {
   "property": "C39",
   "status": "proved",
   "theorems": [
    "C39_read_back",
    "C39_unambiguous",
    "C39_defined"
   ],
   "note": "An independent reader recovers the components from dn."
  },
  {
   "property": "C40",
   "status": "proved",
   "theorems": [
    "C40_find_certificates",
    "C40_find_certificate",
    "C40_unreadable",
    "C40_store"
   ],
   "note": "For all lists of stores that can be read; if one cannot be read its error is raised (C40_unreadable)."
  },
  {
   "property": "C41",
   "status": "proved",
   "theorems": [
    "C41_potential_chains",
    "C41_signer"
   ],
   "note": "For all loaded stores; soundness, completeness and no repetitions. Python's recursion limit is not modelled (depth is at most the given one)."
  },
  {
   "property": "C42",
   "status": "partial",
   "theorems": [
    "C42_refuted",
    "C42_naive_refuted",
    "C42_verify_trust_partial",
    "C42_exact",
    "C42_sound",
    "C42_order_partial"
   ],
   "note": "False when a store in front has a trust list with an unsupported algorithm (C42_refuted), or with times that are compared with a naive datetime (C42_naive_refuted). Proved for supported lists, first certificates with a textual form, aware datetimes and usages that can be read twice; C42_exact says when True is returned for all lists, certificates and datetimes; soundness (C42_sound) likewise."
  },
  {
   "property": "C43",
   "status": "partial",
   "theorems": [
    "C43_refuted",
    "C43_after_first_read_partial",
    "C43_trusts_no_more"
   ],
   "note": "False before the first reading operation: is_trusted does not load (C43_refuted). Proved from the first successful reading operation on, and is_trusted never says yes wrongly."
  },
  {
   "property": "C44",
   "status": "proved",
   "theorems": [
    "C44_contents",
    "C44_stable",
    "C44_others"
   ],
   "note": "Every history of operations, every failure point of a load."
  },
  {
   "property": "C45",
   "status": "proved",
   "theorems": [
    "C45_entry_decision"
   ],
   "note": "All entries, non-empty chains, timestamps and usages; for naive datetimes also whether TypeError is raised."
  },
  {
   "property": "C46",
   "status": "proved",
   "theorems": [
    "C46_monotone"
   ],
   "note": "Follows from C45 for all pairs of requests; a naive datetime is comparable only with itself."
  },
  {
   "property": "C47",
   "status": "proved",
   "theorems": [
    "C47_lookup",
    "C47_unlisted_rejected"
   ],
   "note": "All lists, from the raw entries to the lookup."
  },
  {
   "property": "C48",
   "status": "proved",
   "theorems": [
    "C48_accurate",
    "C48_monotone",
    "C48_failures"
   ],
   "note": "Double rounding of value/10 modelled exactly over Z."
  },
  {
   "property": "C49",
   "status": "partial",
   "theorems": [
    "C49_refuted",
    "C49_partial"
   ],
   "note": "False as stated: FileTime.set scales seconds by 100 instead of 10^7 (asn1/ctl.py:132)."
  },
  {
   "property": "C50",
   "status": "partial",
   "theorems": [
    "C50_accepts_iff",
    "C50_legacy_is_opt_in",
    "C50_refuted",
    "C50_rejection_class_partial",
    "C50_respects_equality"
   ],
   "note": "Acceptance part proved in full. The last clause (class of the rejection) is false for certificates whose subject has a non-string attribute: formatting the message raises TypeError; proved for formattable subjects."
  },
  {
   "property": "C51",
   "status": "proved",
   "theorems": [
    "C51_signature_input",
    "C51_bound"
   ],
   "note": "DER SET OF encoding of the attribute contents is the input of the signature check; injective for contents of any length"
  },
  {
   "property": "C52",
   "status": "proved",
   "theorems": [
    "C52_accepted_algorithms",
    "C52_rejected_with_ParseError",
    "C52_ranking"
   ],
   "note": ""
  },
  {
   "property": "C53",
   "status": "partial",
   "theorems": [
    "C53_accepted_partial",
    "C53_unique_attributes_partial",
    "C53_nested",
    "C53_rejected_partial",
    "C53_errors",
    "C53_envelope",
    "C53_refuted_attributes",
    "C53_refuted_errors"
   ],
   "note": "Accepted structures characterised exactly at any depth; false as stated: repeated attributes are accepted (last wins) and several defects raise KeyError, TypeError, AssertionError, NotImplementedError or OverflowError instead of ParseError"
  },
  {
   "property": "C54",
   "status": "proved",
   "theorems": [
    "C54_accuracy"
   ],
   "note": "For non-negative fields; OverflowError beyond the largest timedelta."
  },
  {
   "property": "C55",
   "status": "proved",
   "theorems": [
    "C55_sound"
   ],
   "note": "For any multi_verify_mode and keyword arguments of the default contexts, not only the defaults; the trusted store reference must exist. In strict mode also the countersignature holds."
  },
  {
   "property": "C56",
   "status": "proved",
   "theorems": [
    "C56_terminates_with_listed_errors",
    "C56_each_class_occurs",
    "C56_refuted"
   ],
   "note": "C56_refuted is the last sentence of the statement: errors that are no SignifyErrors leave the verification."
  },
  {
   "property": "C57",
   "status": "partial",
   "theorems": [
    "C57_same_hash_partial",
    "C57_modification_partial",
    "C57_table_at_end_partial",
    "C57_refuted"
   ],
   "note": "The general statement is false (C57_refuted: the same signature is accepted for a file whose certificate table was moved). Proved: equal hashes in general; any modification outside the omitted sections of a file of the same layout is rejected in every mode up to a hash collision; agreement outside the omitted sections if the tables end the files."
  },
  {
   "property": "C58",
   "status": "proved",
   "theorems": [
    "C58_determined",
    "C58_checksum"
   ],
   "note": ""
  },
  {
   "property": "C59",
   "status": "proved",
   "theorems": [
    "C59_exact",
    "C59_accepted",
    "C59_all",
    "C59_first",
    "C59_any",
    "C59_file",
    "C64_exact",
    "C64_file"
   ],
   "note": "The C59 theorems are for signers naming one certificate and countersignatures that must hold; C64_exact and C64_file are the exact statements for any candidates, modes and one-shot usages. Stores that cannot be read are treated in C74."
  },
  {
   "property": "C60",
   "status": "proved",
   "theorems": [
    "C60_entry",
    "C60_decision",
    "C60_readable",
    "C60_subjects",
    "C60_trust",
    "C60_file",
    "C60_not_signed_data"
   ],
   "note": "Usages given as one-shot iterators are excluded in C60_trust (see C35, C43)."
  },
  {
   "property": "C61",
   "status": "proved",
   "theorems": [
    "C61_file",
    "C61_signature",
    "C61_unchanged"
   ],
   "note": ""
  },
  {
   "property": "C62",
   "status": "partial",
   "theorems": [
    "C62_refuted",
    "C62_repeatable"
   ],
   "note": "Refuted for a trusted store that fails to load (_loaded is set before loading, so that the second verification sees the part loaded); proved for every store that can be read."
  },
  {
   "property": "C63",
   "status": "proved",
   "theorems": [
    "C63_all",
    "C63_first",
    "C63_none",
    "C63_settles"
   ],
   "note": ""
  },
  {
   "property": "C64",
   "status": "proved",
   "theorems": [
    "C64_exact",
    "C64_decided",
    "C64_file",
    "C64_computed"
   ],
   "note": ""
  },
  {
   "property": "C65",
   "status": "proved",
   "theorems": [
    "C65_signer",
    "C65_plain_signer",
    "C65_token",
    "C65_decided",
    "C65_content"
   ],
   "note": ""
  },
  {
   "property": "C66",
   "status": "partial",
   "theorems": [
    "C66_components",
    "C66_labels",
    "C66_equal_names",
    "C66_complete",
    "C66_refuted"
   ],
   "note": "The last clause is false: of an RDN with several attributes only the first is found (C66_refuted). The rest is proved for all names."
  },
  {
   "property": "C67",
   "status": "proved",
   "theorems": [
    "C67_complete",
    "C67_embeds",
    "C67_file",
    "C67_errors",
    "C67_usages"
   ],
   "note": "Decoding on demand is modelled for everything that is read while parsing; the components of a distinguished name are decoded with the name."
  },
  {
   "property": "C68",
   "status": "partial",
   "theorems": [
    "C68_general",
    "C68_declared",
    "C68_unambiguous",
    "C68_field",
    "C68_spc",
    "C68_tst",
    "C68_refuted",
    "C68_sequences",
    "C68_absent",
    "C68_alternatives",
    "C68_elements",
    "C68_marks",
    "C68_choice_marks"
   ],
   "note": "All declarations but SpcFinancialCriteria, for which it is false (C68_refuted)."
  },
  {
   "property": "C69",
   "status": "proved",
   "theorems": [
    "C69_errors",
    "C69_each_class",
    "C69_file",
    "C69_nesting"
   ],
   "note": "For the decoder of ModelDecode.v, which stands for asn1crypto."
  },
  {
   "property": "C70",
   "status": "proved",
   "theorems": [
    "C70_attributes",
    "C70_purposes",
    "C70_content",
    "C70_token",
    "C70_stamp",
    "C70_image"
   ],
   "note": "Collisions are explicit in the conclusions; no assumption on the hash function."
  },
  {
   "property": "C71",
   "status": "proved",
   "theorems": [
    "C71_errors",
    "C71_envelope"
   ],
   "note": "All byte strings; each class is reached by an example."
  },
  {
   "property": "C72",
   "status": "proved",
   "theorems": [
    "C72_readable",
    "C72_read",
    "C72_trust"
   ],
   "note": "From octets to trust decisions, for both encodings of the content."
  },
  {
   "property": "C73",
   "status": "proved",
   "theorems": [
    "C73_integer",
    "C73_oid",
    "C73_oid_injective",
    "C73_names",
    "C73_days",
    "C73_utc_time",
    "C73_general_time",
    "C73_local_time",
    "C73_general_exact",
    "C73_utc_exact",
    "C73_utf8",
    "C73_bmp",
    "C73_universal",
    "C73_ia5"
   ],
   "note": "Numbers, identifiers and their names, times and texts, each against the encoding rules of its standard."
  },
  {
   "property": "C74",
   "status": "partial",
   "theorems": [
    "C74_signer",
    "C74_token",
    "C74_exact_partial",
    "C74_signature_partial",
    "C74_countersignature",
    "C74_file_partial",
    "C74_refuted"
   ],
   "note": "False as stated: the failing attempt marks the store as loaded, and later attempts of the same call use the part that was read (mode any: C74_refuted; mode permit: C29_unreadable_refuted). Proved for signers, tokens, signatures without permitted countersignatures, and files in the modes all and first."
  },
  {
   "property": "C75",
   "status": "partial",
   "theorems": [
    "C75_read",
    "C75_base64",
    "C75_none",
    "C75_single",
    "C75_sound",
    "C75_store",
    "C75_stray",
    "C75_errors",
    "C75_plain",
    "C75_refuted"
   ],
   "note": "Everything but the last sentence, which is false (C75_refuted): an unclosed block at the end is dropped without an error, and an unclosed block in the middle swallows the block that follows."
  },
  {
   "property": "C76",
   "status": "proved",
   "theorems": [
    "C76_read",
    "C76_encoded",
    "C76_names"
   ],
   "note": "Version, signature algorithm and signature value of the certificate are not part of the model's certificates; they are required to be readable."
  },
  {
   "property": "C77",
   "status": "proved",
   "theorems": [
    "C77_read",
    "C77_encoded",
    "C77_parts"
   ],
   "note": "octets that say r are parsed as r, at any depth; encoded parts are read back"
  },
  {
   "property": "C78",
   "status": "partial",
   "theorems": [
    "C78_refuted",
    "C78_context",
    "C78_chains",
    "C78_countersignature",
    "C78_permitted"
   ],
   "note": "Nothing is accepted at a naive datetime and a countersignature with one counts for nothing (proved). The last sentence is false: a caller's naive timestamp makes verify raise ValueError (C78_refuted; the documentation asks for an aware one, but it is not checked)."
  },
  {
   "property": "C79",
   "status": "proved",
   "theorems": [
    "C79_read",
    "C79_verdict",
    "C79_decided"
   ],
   "note": "Contexts passed by the caller must be shareable between signatures and stores readable, as in C64_file."
  },
  {
   "property": "C80",
   "status": "proved",
   "theorems": [
    "C80_main",
    "C80_determined"
   ],
   "note": ""
  },
  {
   "property": "C81",
   "status": "proved",
   "theorems": [
    "C81_listing",
    "C81_order",
    "C81_unreadable",
    "C81_text",
    "C81_text_defined"
   ],
   "note": ""
  },
  {
   "property": "C82",
   "status": "partial",
   "theorems": [
    "C82_either",
    "C82_decoded",
    "C82_broken",
    "C82_equal",
    "C82_certificates",
    "C82_member",
    "C82_text",
    "C82_signer",
    "C82_search",
    "C82_octets",
    "C82_octets_decoded",
    "C82_refuted"
   ],
   "note": "All parts are proved; that a search always finds the certificate it is for is false of the code (C82_refuted), as a certificate with the same serial number and an undecodable issuer ends it."
  },
  {
   "property": "C83",
   "status": "proved",
   "theorems": [
    "C83_written",
    "C83_counted",
    "C83_image",
    "C83_envelope",
    "C83_signed"
   ],
   "note": "A moniker is shown as an object, not as text."
  },
  {
   "property": "C84",
   "status": "proved",
   "theorems": [
    "C84_decoded_signature",
    "C84_decoded_file",
    "C84_signer",
    "C84_signature",
    "C84_accepted_signature",
    "C84_accepted_file",
    "C84_harmless_signature",
    "C84_harmless_file",
    "C84_trust_refuted"
   ],
   "note": "For all names, certificates, stores, signatures and files. C84_accepted_file is for the default contexts. C84_trust_refuted shows that the condition on trusted stores in the harmless theorems is needed."
  },
  {
   "property": "C85",
   "status": "proved",
   "theorems": [
    "C85_value",
    "C85_values",
    "C85_prefix",
    "C85_load",
    "C85_any_type",
    "C85_error",
    "C85_definite",
    "C85_refuted"
   ],
   "note": "Exact characterisation of what the decoder reads; C85_refuted shows the one liberty it takes."
  },
  {
   "property": "C86",
   "status": "proved",
   "theorems": [
    "C86_accepted",
    "C86_found",
    "C86_exact",
    "C86_certificate"
   ],
   "note": "Both directions for all octets: what is accepted is an encoding of a well-formed signature that says what the object says, and every such encoding is accepted once the recursion depth is large enough."
  },
  {
   "property": "C87",
   "status": "proved",
   "theorems": [
    "C87_read",
    "C87_unique",
    "C87_exact"
   ],
   "note": "Both directions, with parse errors ignored or not; shared contexts and unambiguous stores are assumed as in C64."
  },
  {
   "property": "C88",
   "status": "proved",
   "theorems": [
    "C88_evidence",
    "C88_none"
   ],
   "note": "Default contexts and no supplied hashes, as in C55."
  },
  {
   "property": "C89",
   "status": "proved",
   "theorems": [
    "C89_opened",
    "C89_read",
    "C89_one",
    "C89_trust",
    "C89_evidence",
    "C89_none"
   ],
   "note": "Both directions, from the octets on. Libraries as in C87."
  },
  {
   "property": "C90",
   "status": "proved",
   "theorems": [
    "C90_import",
    "C90_sound",
    "C90_nothing",
    "C90_exact"
   ],
   "note": "mscerts is represented by the octets of its files; the options are passed to the validator, which is a parameter."
  }
 ]
}