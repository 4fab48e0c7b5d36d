{"id": "C01", "title": "Fingerprinter.hashes is total and exact on valid ranges", "statement": "For a Fingerprinter on any file, with any positive block_size, after any sequence of add_hashers calls whose ranges are well formed (0 <= start <= end <= file length, in any order, overlapping or empty, distinct list objects), hashes() terminates without raising and returns, for each description, for each hasher name, the digest of the concatenation of exactly those ranges in list order (the whole file when no ranges were given); if a description or a name is reused, the last registration wins.", "quantifier": "every file content, every positive block size, every sequence of add_hashers calls with every list of well-formed ranges", "why_tests_cant": "The loop interleaves all fingers by moving interval boundaries; a test fixes a handful of range layouts and file sizes below the 1,000,000 byte block size.", "anchors": ["signify/fingerprinter.py:Fingerprinter.hashes", "signify/fingerprinter.py:Fingerprinter._next_interval", "signify/fingerprinter.py:Fingerprinter._hash_block", "signify/fingerprinter.py:Finger.consume"]}
{"id": "C02", "title": "Fingerprinter never returns a wrong digest", "statement": "Whatever ranges are passed to add_hashers (reversed, negative, beyond the end of the file) and whatever the block size, if hashes() returns at all then every range of every finger was well formed (0 <= start <= end, and end <= file length unless the range is empty) and every digest is the digest of the concatenation of its ranges.", "quantifier": "every file, every integer block size, every list of integer ranges, every number of loop iterations", "why_tests_cant": "The set of malformed range lists is infinite and a silently wrong digest leaves no trace that a test could detect without an oracle.", "anchors": ["signify/fingerprinter.py:Fingerprinter.hashes", "signify/fingerprinter.py:Finger.consume", "signify/fingerprinter.py:Fingerprinter._hash_block"]}
{"id": "C03", "title": "Fingers do not influence each other and block size is unobservable", "statement": "The digests returned for one add_hashers call depend only on the file content, its hashers and its ranges: they are unchanged by any other add_hashers calls registered on the same Fingerprinter under other descriptions and by the choice of positive block_size.", "quantifier": "every pair of positive block sizes and every pair of surrounding call sequences", "why_tests_cant": "Needs a comparison over all pairs of configurations.", "anchors": ["signify/fingerprinter.py:Fingerprinter.hashes", "signify/fingerprinter.py:Fingerprinter.add_hashers"]}
{"id": "C04", "title": "Fingerprinter reset and resumption", "statement": "After hashes() returns, the Fingerprinter has no fingers left, so a following hashes() returns an empty dict and a following add_hashers/hashes round behaves as on a new object. If hashes() raised because the file was too short, no digest is lost: once the bytes are available, calling hashes() again yields the digests that an uninterrupted run would have returned.", "quantifier": "every history of add_hashers/hashes rounds, every failure point (every iteration at which a short read can happen)", "why_tests_cant": "Quantifies over histories and over the iteration at which the failure hits.", "anchors": ["signify/fingerprinter.py:Fingerprinter.hashes"]}
{"id": "C05", "title": "Fingerprinter.hash is only for a single registration", "statement": "hash() returns the digests of the one registered description and raises RuntimeError when hashes() would return any other number of descriptions; it is documented to be callable only when add_hashers was called exactly once.", "quantifier": "every sequence of add_hashers calls", "why_tests_cant": "The number and the naming of the calls is unbounded.", "anchors": ["signify/fingerprinter.py:Fingerprinter.hash"]}
{"id": "C06", "title": "Range lists passed to add_hashers are not changed", "statement": "The list object a caller passes as ranges= keeps its contents, so that the same list can be reused for another Fingerprinter or another add_hashers call and the same bytes are hashed again.", "quantifier": "every list of ranges, every later use of the same list object", "why_tests_cant": "Aliasing of a mutable argument across calls: a history property.", "anchors": ["signify/fingerprinter.py:Fingerprinter.add_hashers", "signify/fingerprinter.py:Finger.consume"]}
{"id": "C07", "title": "Malformed requests fail by exception", "statement": "A malformed range (end before start, past the end of the file, negative start) or a block size below one makes hashes() raise, rather than run forever.", "quantifier": "every list of ranges and every block size", "why_tests_cant": "Non-termination cannot be observed by a finite test.", "anchors": ["signify/fingerprinter.py:Fingerprinter.hashes", "signify/fingerprinter.py:Fingerprinter._next_interval"]}
{"id": "C08", "title": "PE header parsing is total and does not depend on the file position", "statement": "SignedPEFile.get_authenticode_omit_sections() returns a dict or None for every byte string whatsoever, raises nothing, does not change the file contents, and its answer does not depend on where the file object's position was.", "quantifier": "every byte string and every initial file position", "why_tests_cant": "All byte strings.", "anchors": ["signify/authenticode/signed_pe.py:SignedPEFile.get_authenticode_omit_sections", "signify/authenticode/signed_pe.py:SignedPEFile._parse_pe_header_locations"]}
{"id": "C09", "title": "Omitted sections follow the PE/COFF layout", "statement": "The sections returned are exactly those of the PE/COFF layout: the 4 byte checksum at optional header + 64, the 8 byte certificate-table data directory entry at optional header + 128 (PE32) or + 144 (PE32+) when NumberOfRvaAndSizes >= 5 and the optional header is big enough, and the certificate table itself when its size is non-zero and it lies behind the optional header and within the file; None is returned exactly when the MZ/PE signatures, the magic or the optional header size make the file unusable.", "quantifier": "every byte string", "why_tests_cant": "Every field combination of the header, including truncated files.", "anchors": ["signify/authenticode/signed_pe.py:SignedPEFile._parse_pe_header_locations"]}
{"id": "C10", "title": "Omitted sections are in bounds, disjoint and ordered", "statement": "For every file, the sections returned by get_authenticode_omit_sections lie within the file, have positive length, are pairwise disjoint and appear in the order checksum, data directory entry, certificate table.", "quantifier": "every byte string", "why_tests_cant": "Adversarial headers are unbounded.", "anchors": ["signify/authenticode/signed_pe.py:SignedPEFile.get_authenticode_omit_sections"]}
{"id": "C11", "title": "The authentihash covers every byte outside the omitted sections", "statement": "For every PE file that parses, AuthenticodeFingerprinter.add_authenticode_hashers(...) followed by hashes() yields under 'authentihash' the digest of the file with exactly the checksum, the data directory entry and the certificate table removed, every other byte being hashed exactly once and in file order. When the file does not parse, add_authenticode_hashers returns False and registers nothing.", "quantifier": "every byte string, every list of hash functions, any other hashers registered on the same object", "why_tests_cant": "All files.", "anchors": ["signify/fingerprinter.py:AuthenticodeFingerprinter.add_authenticode_hashers", "signify/authenticode/signed_pe.py:SignedPEFile.get_authenticode_omit_sections"]}
{"id": "C12", "title": "Authentihash sensitivity and insensitivity", "statement": "Two files of equal length with the same omitted sections feed the same bytes to the hash if and only if they agree at every offset outside the omitted sections; rewriting the checksum field or the contents of the certificate table in any way changes neither the omitted sections nor the authentihash.", "quantifier": "every pair of files", "why_tests_cant": "Needs all modifications of all files.", "anchors": ["signify/fingerprinter.py:AuthenticodeFingerprinter.add_authenticode_hashers", "signify/authenticode/signed_pe.py:SignedPEFile._parse_pe_header_locations"]}
{"id": "C13", "title": "The authentihash binds bytes to file offsets", "statement": "If two files of equal length have the same authentihash input, they agree at every offset that is outside the omitted sections of both.", "quantifier": "every pair of files", "why_tests_cant": "Relational property over pairs of adversarial files.", "anchors": ["signify/fingerprinter.py:AuthenticodeFingerprinter.add_authenticode_hashers"]}
{"id": "C14", "title": "Certificate table walk is memory-safe and terminates", "statement": "For every file, walking the certificate table terminates; every blob it yields has length at least one, is exactly a sub-range of the certificate table starting 8 bytes into its entry, entries do not overlap and appear in increasing order; a header that runs past the table or declares a length of 8 or less stops the walk with SignedPEParseError.", "quantifier": "every byte string", "why_tests_cant": "The table contents are attacker-controlled; an infinite loop was fixed here in v0.1.5, an out-of-bounds read in v0.7.0.", "anchors": ["signify/authenticode/signed_pe.py:SignedPEFile._parse_cert_table"]}
{"id": "C15", "title": "Certificate table round-trip", "statement": "If the certificate table of a file is the 8-byte aligned WIN_CERTIFICATE encoding of a list of (revision, type, blob) entries, then walking it yields exactly that list.", "quantifier": "every list of entries with non-empty blobs that fit in 32 bits", "why_tests_cant": "All lists and sizes, all alignments.", "anchors": ["signify/authenticode/signed_pe.py:SignedPEFile._parse_cert_table"]}
{"id": "C16", "title": "Iteration is insensitive to interleaved file access", "statement": "Iterating over the certificate table, and over the signatures of a file (iter_signed_datas), yields the same even if other users of the same file object (fingerprinting, verification, reads) move its position arbitrarily between two steps of the iterator; a loop over the signatures that is left early has seen the first of them.", "quantifier": "every schedule of seeks between iterator steps", "why_tests_cant": "Schedules.", "anchors": ["signify/authenticode/signed_pe.py:SignedPEFile._parse_cert_table", "signify/authenticode/signed_pe.py:SignedPEFile.iter_signed_datas", "signify/fingerprinter.py:Fingerprinter.hashes"]}
{"id": "C17", "title": "iter_signed_datas enumerates all signatures once, parents first", "statement": "iter_signed_datas() yields, in certificate table order, each type-2 entry's SignedData followed by its nested SignedDatas in depth-first order, each exactly once; with include_nested=False it yields the top-level ones only, in the same relative order.", "quantifier": "every certificate table and every finite nesting of signatures", "why_tests_cant": "Unbounded nesting and branching.", "anchors": ["signify/authenticode/signed_pe.py:SignedPEFile.iter_signed_datas"]}
{"id": "C18", "title": "ignore_parse_errors only changes how the iteration ends", "statement": "With ignore_parse_errors=True iter_signed_datas yields exactly the same objects as with False, and differs only in that a SignedPEParseError (including the one for 'no SignedData found') ends the iteration silently; every other exception is propagated in both modes.", "quantifier": "every file and every position of the error", "why_tests_cant": "Every failure position.", "anchors": ["signify/authenticode/signed_pe.py:SignedPEFile.iter_signed_datas"]}
{"id": "C19", "title": "multi_verify_mode semantics", "statement": "SignedPEFile.verify succeeds in mode 'all' iff every signature verifies, in mode 'first' iff the first does, in mode 'any' (and for any unknown mode) iff at least one does, and in mode 'best' iff at least one of those with the strongest digest algorithm present does.", "quantifier": "every list of signatures and every verdict on each of them", "why_tests_cant": "All combinations of verdicts and algorithms for any number of signatures.", "anchors": ["signify/authenticode/signed_pe.py:SignedPEFile.verify"]}
{"id": "C20", "title": "What SignedPEFile.verify returns and raises", "statement": "On success the returned list holds only (signature, chains) pairs whose own verification succeeded: all of them in order for 'all', exactly one otherwise. On failure 'all'/'first' raise the error of the first failing signature and 'any'/'best' that of the last considered one.", "quantifier": "every list of signatures and verdicts", "why_tests_cant": "All positions of failures.", "anchors": ["signify/authenticode/signed_pe.py:SignedPEFile.verify"]}
{"id": "C21", "title": "Unsigned files are never reported as verified", "statement": "If the file yields no SignedData (not a PE file, no certificate table, no type-2 entry, only parse errors), SignedPEFile.verify raises AuthenticodeNotSignedError (ignore_parse_errors=True) or the parse error (False), whatever the other arguments.", "quantifier": "every file and every argument combination", "why_tests_cant": "All files.", "anchors": ["signify/authenticode/signed_pe.py:SignedPEFile.verify"]}
{"id": "C22", "title": "Expected hashes: supplied ones are used, missing ones are computed", "statement": "In SignedPEFile.verify every signature is compared with the caller-supplied hash of its digest algorithm when there is one, and with the computed authentihash of the file otherwise; no lookup fails.", "quantifier": "every dict of supplied hashes and every set of algorithms used by the signatures", "why_tests_cant": "All dictionaries.", "anchors": ["signify/authenticode/signed_pe.py:SignedPEFile._calculate_expected_hashes", "signify/authenticode/signed_pe.py:SignedPEFile.verify"]}
{"id": "C23", "title": "The expected_hashes argument is not modified", "statement": "SignedPEFile.verify leaves the dict passed as expected_hashes unchanged, so that it can be reused for the next file.", "quantifier": "every dict, every sequence of verified files sharing it", "why_tests_cant": "Aliasing across a history of calls.", "anchors": ["signify/authenticode/signed_pe.py:SignedPEFile._calculate_expected_hashes"]}
{"id": "C24", "title": "explain_verify classifies every outcome", "statement": "explain_verify returns (OK, None) iff verify returns, and otherwise the documented status for the class of the exception together with that exception; the most specific documented class wins and no Exception escapes.", "quantifier": "every outcome of verify, including arbitrary exceptions of the underlying libraries", "why_tests_cant": "All exception classes, including ones outside signify.", "anchors": ["signify/authenticode/structures.py:AuthenticodeVerificationResult.call", "signify/authenticode/signed_pe.py:SignedPEFile.explain_verify", "signify/authenticode/structures.py:AuthenticodeSignedData.explain_verify"]}
{"id": "C25", "title": "Integrity: a verified SignedData matches the file", "statement": "If AuthenticodeSignedData.verify returns, then SignedData, SpcInfo and SignerInfo name the same digest algorithm, SpcInfo.digest equals the expected hash (the supplied one, or else the authentihash of the file), and SignerInfo.message_digest is the digest of the signed content.", "quantifier": "every SignedData, every argument combination, every behaviour of the crypto and chain-building libraries", "why_tests_cant": "Soundness over all inputs.", "anchors": ["signify/authenticode/structures.py:AuthenticodeSignedData.verify", "signify/pkcs7/signeddata.py:SignedData.content_digest"]}
{"id": "C26", "title": "Authenticity: a verified SignedData is signed by a trusted chain", "statement": "If AuthenticodeSignedData.verify returns, the result is a non-empty list of chains, and each comes from a certificate found in the context's stores with the SignerInfo's issuer and serial number, whose public key verifies the encrypted digest over the re-encoded authenticated attributes, and whose chain was accepted by the chain validator and by a trusted store.", "quantifier": "every SignedData, every context, every behaviour of the crypto and chain-building libraries", "why_tests_cant": "Soundness over all inputs.", "anchors": ["signify/authenticode/structures.py:AuthenticodeSignedData.verify", "signify/pkcs7/signerinfo.py:SignerInfo.verify", "signify/pkcs7/signerinfo.py:SignerInfo._build_chain", "signify/pkcs7/signerinfo.py:SignerInfo._verify_issuer"]}
{"id": "C27", "title": "Digest checks come first and have their own error", "statement": "When the digest algorithms differ verify raises AuthenticodeInconsistentDigestAlgorithmError, and when they agree but the file hash or content hash differ it raises AuthenticodeInvalidDigestError, regardless of certificates, countersignatures and contexts.", "quantifier": "every SignedData and every argument combination", "why_tests_cant": "All inputs.", "anchors": ["signify/authenticode/structures.py:AuthenticodeSignedData.verify"]}
{"id": "C28", "title": "Strict countersignature mode", "statement": "In mode 'strict', if the signer has a countersigner and verify returns, then the countersignature covers the encrypted digest, its own chain was verified at its signing time, and (RFC 3161) its TSTInfo digest matches; any error while checking it is reported as AuthenticodeCounterSignerError.", "quantifier": "every SignedData with a countersigner of either kind", "why_tests_cant": "All inputs.", "anchors": ["signify/authenticode/structures.py:AuthenticodeSignedData.verify", "signify/authenticode/structures.py:RFC3161SignedData.verify", "signify/pkcs7/signerinfo.py:SignerInfo.check_message_digest"]}
{"id": "C29", "title": "Permissive countersignature mode", "statement": "In mode 'permit', if checking the countersignature fails, verify behaves as if the countersignature were absent; if it succeeds, verify behaves as in mode 'strict'.", "quantifier": "every SignedData, every context pair", "why_tests_cant": "Relational property over all inputs.", "anchors": ["signify/authenticode/structures.py:AuthenticodeSignedData.verify"]}
{"id": "C30", "title": "Ignored countersignatures have no influence", "statement": "In mode 'ignore', the outcome of verify is the same for any two SignedDatas that differ only in their countersigner.", "quantifier": "every SignedData, every pair of countersigners", "why_tests_cant": "Relational property.", "anchors": ["signify/authenticode/structures.py:AuthenticodeSignedData.verify"]}
{"id": "C31", "title": "The time of validation", "statement": "The chain of the signer is validated at the countersignature's signing time if (and only if) there is a countersigner that was checked successfully, and otherwise at the context's own timestamp.", "quantifier": "every SignedData and context", "why_tests_cant": "All inputs.", "anchors": ["signify/authenticode/structures.py:AuthenticodeSignedData.verify", "signify/pkcs7/signerinfo.py:SignerInfo._verify_issuer", "signify/x509/context.py:VerificationContext.verify"]}
{"id": "C32", "title": "Lifetime signing", "statement": "A signing certificate carrying the lifetime-signing extended key usage is never validated at the countersignature's time: the timestamp cannot extend its lifetime.", "quantifier": "every set of certificates in the stores and every order of them", "why_tests_cant": "Depends on all candidate certificates and their order.", "anchors": ["signify/authenticode/structures.py:AuthenticodeSignerInfo._verify_issuer", "signify/pkcs7/signerinfo.py:SignerInfo._build_chain"]}
{"id": "C33", "title": "Signatures are verified independently of each other", "statement": "The verdict on each SignedData of a file does not depend on which other SignedDatas were verified before it with the same arguments.", "quantifier": "every sequence of verifications sharing a context", "why_tests_cant": "A history property: leftover state in a shared VerificationContext.", "anchors": ["signify/authenticode/signed_pe.py:SignedPEFile.verify", "signify/pkcs7/signerinfo.py:SignerInfo._verify_issuer"]}
{"id": "C34", "title": "Embedded certificates are never trust anchors", "statement": "With default contexts, the trust roots given to the chain validator are exactly the certificates of the trusted_certificate_store argument (none if it is not marked trusted); certificates shipped in the signature are intermediates only.", "quantifier": "every SignedData and every trusted store", "why_tests_cant": "All inputs.", "anchors": ["signify/authenticode/structures.py:AuthenticodeSignedData.verify", "signify/x509/context.py:VerificationContext.verify", "signify/pkcs7/signeddata.py:SignedData._parse"]}
{"id": "C35", "title": "A returned chain starts at a trusted and CTL-approved root", "statement": "Whatever the chain validator answers, VerificationContext.verify only returns a chain whose first certificate is in a store of the context that is marked trusted and whose trust list, if any, accepts the chain at the context's timestamp and usages.", "quantifier": "every validator behaviour, every store list", "why_tests_cant": "Must hold for every behaviour of an external library.", "anchors": ["signify/x509/context.py:VerificationContext.verify", "signify/x509/context.py:VerificationContext.verify_trust"]}
{"id": "C36", "title": "SignerInfo.verify collects all valid chains", "statement": "SignerInfo.verify returns the chains of exactly those candidate certificates that verify, in candidate order, and raises the first error if none does and SignerInfoVerificationError if there is no candidate.", "quantifier": "every set of candidates and verdicts", "why_tests_cant": "All combinations of verdicts.", "anchors": ["signify/pkcs7/signerinfo.py:SignerInfo._build_chain", "signify/pkcs7/signerinfo.py:SignerInfo.verify"]}
{"id": "C37", "title": "Certificate equality is an equivalence compatible with hashing", "statement": "== on Certificate and CertificateName is reflexive, symmetric and transitive, equal objects have equal hashes, and a Certificate's equality is determined by issuer, serial number, subject, key algorithm and key only.", "quantifier": "all certificates", "why_tests_cant": "All triples of objects.", "anchors": ["signify/x509/certificates.py:Certificate.__eq__", "signify/x509/certificates.py:Certificate.__hash__", "signify/x509/certificates.py:CertificateName.__eq__"]}
{"id": "C38", "title": "Distinguished names: equal names are the same name", "statement": "Two CertificateNames compare equal only if their sequences of RDNs carry the same attribute types and values.", "quantifier": "all pairs of names", "why_tests_cant": "All pairs.", "anchors": ["signify/x509/certificates.py:CertificateName.__eq__", "signify/x509/certificates.py:CertificateName.get_components"]}
{"id": "C39", "title": "CertificateName.dn is unambiguous", "statement": "The dn string determines the list of (type, value) components: two names with different rdns have different dn strings, whatever characters (commas, backslashes, quotes, leading '#', trailing spaces) the values contain.", "quantifier": "all lists of components with arbitrary unicode values", "why_tests_cant": "All strings.", "anchors": ["signify/x509/certificates.py:CertificateName.dn"]}
{"id": "C40", "title": "find_certificates filters and deduplicates", "statement": "VerificationContext.find_certificates yields only certificates of its stores that match all given criteria, in store order, no two of them equal, and every matching certificate is equal to a yielded one; find_certificate returns the unique one and raises KeyError for none or several.", "quantifier": "every list of stores and every query", "why_tests_cant": "All stores and queries.", "anchors": ["signify/x509/context.py:VerificationContext.find_certificates", "signify/x509/context.py:CertificateStore.find_certificates", "signify/x509/context.py:VerificationContext.find_certificate"]}
{"id": "C41", "title": "potential_chains enumerates exactly the issuer/subject paths", "statement": "potential_chains(c, depth) terminates and yields exactly the sequences that start at a trusted certificate, end in c, link subject to issuer at each step, contain no other trusted certificate and no certificate twice, use only certificates of the stores, and have at most depth+1 members. SignerInfo.potential_chains yields these, for depth 10, for each certificate that the signer names, in the order of the stores, none of them twice.", "quantifier": "every list of loaded stores, including cyclic cross-certification, every depth", "why_tests_cant": "Cyclic graphs, exponential number of paths.", "anchors": ["signify/x509/context.py:VerificationContext.potential_chains", "signify/pkcs7/signerinfo.py:SignerInfo.potential_chains"]}
{"id": "C42", "title": "verify_trust accepts iff some trusted store accepts", "statement": "VerificationContext.verify_trust(chain) returns True iff some store is trusted, contains the chain's first certificate and, if it has a trust list, that list accepts the chain; store order does not matter for acceptance; otherwise the last trust-list error, or else CertificateVerificationError, is raised.", "quantifier": "every list of stores and every chain", "why_tests_cant": "All stores and verdicts.", "anchors": ["signify/x509/context.py:VerificationContext.verify_trust", "signify/x509/context.py:CertificateStore.verify_trust"]}
{"id": "C43", "title": "FileSystemCertificateStore is transparent", "statement": "A FileSystemCertificateStore answers is_trusted, iteration, len and find_certificates as a CertificateStore holding the certificates of its location, at any point of its life.", "quantifier": "every history of operations on the store", "why_tests_cant": "Lazy loading makes answers depend on the history of calls.", "anchors": ["signify/x509/context.py:FileSystemCertificateStore._load", "signify/x509/context.py:FileSystemCertificateStore.__iter__", "signify/x509/context.py:CertificateStore.is_trusted"]}
{"id": "C44", "title": "FileSystemCertificateStore never trusts more than its location, even after failures", "statement": "Whatever the history of operations, and at whatever file a load fails, the store holds only certificates of its location (plus appended ones), loads at most once, and once loaded without error its contents are stable.", "quantifier": "every history, every crash point during loading", "why_tests_cant": "Crash points and histories.", "anchors": ["signify/x509/context.py:FileSystemCertificateStore._load"]}
{"id": "C45", "title": "Trust list entry decision", "statement": "CertificateTrustSubject.verify_trust accepts iff: the requested usages are among the listed ones (when any are listed); and the end-entity certificate's valid_from is before not_before_filetime or none of its usages (or all, if unspecified) are requested; and the timestamp is before disallowed_filetime or none of the disallowed usages (or all, if unspecified) are requested; with usages listed but no time meaning 'always'.", "quantifier": "every entry, chain, timestamp and set of usages", "why_tests_cant": "Full decision table over unbounded sets and times.", "anchors": ["signify/authenticode/authroot.py:CertificateTrustSubject.verify_trust"]}
{"id": "C46", "title": "Trust list decisions are monotone", "statement": "If an entry accepts, it also accepts for any earlier timestamp, for any subset of the requested usages and for any chain whose end-entity certificate was issued earlier.", "quantifier": "all pairs of requests", "why_tests_cant": "Relational property.", "anchors": ["signify/authenticode/authroot.py:CertificateTrustSubject.verify_trust"]}
{"id": "C47", "title": "Trust list lookup is by fingerprint", "statement": "CertificateTrustList.find_subject returns an entry iff the list has one whose identifier is the certificate's SHA-1 (resp. SHA-256) digest, and then the last such entry; a chain whose root is not listed is rejected.", "quantifier": "every list and every certificate", "why_tests_cant": "All lists.", "anchors": ["signify/authenticode/authroot.py:CertificateTrustList.find_subject", "signify/authenticode/authroot.py:CertificateTrustList._parse", "signify/authenticode/authroot.py:CertificateTrustList.verify_trust"]}
{"id": "C48", "title": "FILETIME decoding is monotone and accurate to a microsecond", "statement": "FileTime.native is the time value/10 microseconds after 1601-01-01 up to 1 microsecond for every 8-byte value before the year 2170, and is monotone in the value, so trust-list comparisons are never reversed by rounding.", "quantifier": "every 64-bit value", "why_tests_cant": "2^64 values and floating-point rounding.", "anchors": ["signify/asn1/ctl.py:FileTime.native"]}
{"id": "C49", "title": "FILETIME set/native round-trip", "statement": "Setting a FileTime from an aware datetime and reading it back yields that datetime.", "quantifier": "every datetime since 1601", "why_tests_cant": "All datetimes.", "anchors": ["signify/asn1/ctl.py:FileTime.set", "signify/asn1/ctl.py:FileTime.native"]}
{"id": "C50", "title": "Signature check and legacy fallback", "statement": "Certificate.verify_signature returns iff the key's own scheme accepts the signature over the data, or allow_legacy is set, the key is RSA and the raw-hash check accepts; without allow_legacy, and for non-RSA keys, the legacy check can never make it pass; a rejected signature is a CertificateVerificationError.", "quantifier": "every key type, every behaviour of the crypto library", "why_tests_cant": "All behaviours of an external library.", "anchors": ["signify/x509/certificates.py:Certificate.verify_signature"]}
{"id": "C51", "title": "The signed attributes are bound by the signature input", "statement": "The bytes over which a SignerInfo's signature is checked are the DER SET OF encoding of the authenticated attributes, and different attribute contents give different bytes.", "quantifier": "all attribute contents of any length", "why_tests_cant": "All lengths, all DER length forms.", "anchors": ["signify/pkcs7/signerinfo.py:SignerInfo._encode_attributes"]}
{"id": "C52", "title": "Accepted digest algorithms", "statement": "Every digest algorithm of a parsed structure is one of md5, sha1, sha256, sha384, sha512 without parameters, everything else is rejected with ParseError, and the ranking used by mode 'best' orders them in that order.", "quantifier": "every algorithm identifier", "why_tests_cant": "All identifiers.", "anchors": ["signify/asn1/hashing.py:_get_digest_algorithm", "signify/authenticode/signed_pe.py:SignedPEFile.verify"]}
{"id": "C53", "title": "Structural checks of parsed signatures", "statement": "Every AuthenticodeSignedData object obtained by parsing has one digest algorithm, content type SpcIndirectDataContent, PE image data, exactly one signer with exactly one content type and message digest attribute, no CRLs, at most one countersigner, and nested signatures with the same properties; everything else is rejected with a ParseError.", "quantifier": "every ASN.1 value of any nesting depth", "why_tests_cant": "Unbounded nesting, all attribute lists.", "anchors": ["signify/pkcs7/signeddata.py:SignedData._parse", "signify/pkcs7/signerinfo.py:SignerInfo._parse", "signify/authenticode/structures.py:AuthenticodeSignerInfo._parse", "signify/authenticode/structures.py:AuthenticodeSignedData._parse", "signify/authenticode/structures.py:SpcInfo._parse"]}
{"id": "C54", "title": "Timestamp accuracy conversion", "statement": "accuracy_to_python returns seconds*10^6 + millis*10^3 + micros microseconds, absent fields counting as zero.", "quantifier": "all combinations of present and absent fields", "why_tests_cant": "All values.", "anchors": ["signify/asn1/helpers.py:accuracy_to_python"]}
{"id": "C55", "title": "End-to-end soundness of SignedPEFile.verify", "statement": "If SignedPEFile.verify() returns with default arguments, there is a SignedData in a revision 0x200 type-2 entry of the file's certificate table, or nested in one, such that the digest of the file outside the omitted sections equals its SpcInfo digest, its content digest is signed by a certificate it names, and that certificate chains to a root of the trusted store accepted by the trust list.", "quantifier": "every file and every behaviour of the external libraries", "why_tests_cant": "Composition over all inputs.", "anchors": ["signify/authenticode/signed_pe.py:SignedPEFile.verify", "signify/authenticode/structures.py:AuthenticodeSignedData.verify", "signify/pkcs7/signerinfo.py:SignerInfo.verify", "signify/x509/context.py:VerificationContext.verify"]}
{"id": "C56", "title": "Verification terminates, with a known set of exceptions", "statement": "SignedPEFile.verify ends for every file and all arguments. An exception that leaves it and was not raised by a library is a SignedPEParseError, an AuthenticodeNotSignedError, an AttributeError for an expected hash that hashlib does not know, or of one of 19 further classes; each of these classes is raised by some file. KeyError, TypeError, IndexError, AssertionError, RecursionError, NotImplementedError, OverflowError and AttributeError are among them, so that the expectation that signify raises SignifyErrors only is wrong.", "quantifier": "every file, every behaviour of the external libraries, all stores, contexts, modes and arguments", "why_tests_cant": "Absence of other exceptions and of endless loops over all files and library behaviours.", "anchors": ["signify/authenticode/signed_pe.py:SignedPEFile.verify", "signify/authenticode/signed_pe.py:SignedPEFile.iter_signed_datas", "signify/authenticode/structures.py:AuthenticodeSignedData.verify", "signify/pkcs7/signerinfo.py:SignerInfo.verify", "signify/x509/context.py:VerificationContext.verify"]}
{"id": "C57", "title": "A signature vouches for one image", "statement": "If verification succeeds for two files and the results contain signatures with the same algorithm and the same digest, then the bytes hashed of the two files have the same hash; so a file made by changing bytes outside the checksum, the certificate-table entry of the data directory and the certificate table of a verified file does not verify in any mode, or the change is a collision of one of the accepted hash algorithms.  The intended general statement, that two such files agree at every offset outside the omitted sections, is false: moving the certificate table shifts the bytes without changing the hash.  It holds if the tables are at the end of both files.", "quantifier": "all pairs of files, all parsers of the certificate entries, all modes and arguments, all validators, all hash functions", "why_tests_cant": "Tests change single bytes of a few files; the claim is about every pair of files and every change.", "anchors": ["signify/authenticode/signed_pe.py:SignedPEFile.verify", "signify/authenticode/signed_pe.py:SignedPEFile._parse_pe_header_locations", "signify/fingerprinter.py:Fingerprinter.hash", "signify/authenticode/structures.py:AuthenticodeSignedData.verify"]}
{"id": "C58", "title": "What verification depends on", "statement": "The result of SignedPEFile.verify, and its effect on stores and contexts, depends on the file only through its certificate table and its Authenticode hashes: two files that have the same of both give the same result, value or exception.  In particular the checksum field of the optional header has no influence.", "quantifier": "all pairs of files, all parsers, modes, arguments, stores, contexts and validators", "why_tests_cant": "Independence of all other bytes is a statement about pairs of executions on arbitrary files.", "anchors": ["signify/authenticode/signed_pe.py:SignedPEFile.verify", "signify/authenticode/signed_pe.py:SignedPEFile.iter_signed_datas", "signify/authenticode/signed_pe.py:SignedPEFile._parse_pe_header_locations", "signify/authenticode/structures.py:AuthenticodeSignedData.verify"]}
{"id": "C59", "title": "Exactly the proper signatures are accepted", "statement": "AuthenticodeSignedData.verify succeeds, for a given hash, exactly if the signature is proper: algorithms agree, the digest in SpcInfo is the hash, the messageDigest attribute is that of the content, the certificate named by the signer verifies its encrypted digest, the validator accepts a chain of it at the time due (that of the countersignature, or that of the context for lifetime signing or without one), a store vouches for this chain, and the same holds of the countersignature, which covers the encrypted digest.  So nothing proper is rejected.  A file is accepted in mode 'all' exactly if every signature in it is proper, in mode 'first' exactly if the first is, and in the other modes the first proper one of those chosen is returned; a file with only proper signatures is accepted in every mode.", "quantifier": "all SignedData, files, parsers, stores, trust lists, contexts, validators and cryptographic libraries, with signers naming one certificate, readable stores, usages that can be read repeatedly, and countersignatures that have to hold if they are considered (C64 is without these restrictions)", "why_tests_cant": "Tests show that some valid files are accepted; that every proper signature is accepted, whatever the stores and libraries answer, cannot be sampled.", "anchors": ["signify/authenticode/structures.py:AuthenticodeSignedData.verify", "signify/authenticode/signed_pe.py:SignedPEFile.verify", "signify/pkcs7/signerinfo.py:SignerInfo.verify", "signify/x509/context.py:VerificationContext.verify", "signify/x509/context.py:VerificationContext.verify_trust"]}
{"id": "C60", "title": "Trust lists mean what their entries say", "statement": "An entry of a certificate trust list can be read exactly if every attribute has a value and every FILETIME can be converted; each field of it is then the first value of the last attribute of its type, and the default if there is none.  The list keeps, for every identifier, the last entry.  It accepts a chain exactly if its algorithm is sha1 or sha256 and the last entry with the digest of the root allows, by its attributes, certificates issued when the end-entity certificate was to be used at the time and for the usages of the context.  from_stl_file reads exactly the SignedData with one accepted digest algorithm and a trust list as content, and returns its fields.", "quantifier": "all lists of attributes and entries, with repetitions and in any order; all files, chains, contexts with repeatable usages and hash functions", "why_tests_cant": "Tests use the one list shipped with the package, where attributes and entries are not repeated and few combinations occur.", "anchors": ["signify/authenticode/authroot.py:CertificateTrustList._parse", "signify/authenticode/authroot.py:CertificateTrustList.from_stl_file", "signify/authenticode/authroot.py:CertificateTrustList.subjects", "signify/authenticode/authroot.py:CertificateTrustSubject._parse", "signify/authenticode/authroot.py:CertificateTrustSubject.verify_trust"]}
{"id": "C61", "title": "Verification changes only what it is given to change", "statement": "SignedPEFile(f).verify(...) and AuthenticodeSignedData.verify(...), with whatever outcome, leave the contents of the file as they are; every existing certificate store keeps its contents, except that a file system store that is consulted (the trusted store, or a store of a context passed) may be loaded, once; every existing verification context is left as it is, except those passed as arguments, whose timestamp may be set to the time stated by a countersignature of the signatures found and whose one-shot usage iterators may be used up. With no contexts passed and nothing left to load, nothing existing changes.", "quantifier": "all files, parsers, libraries, arguments, stores and contexts, loop bounds, and outcomes including errors and interruptions", "why_tests_cant": "A test observes the objects it thinks of; a leak into another store or context, on some error path, is only excluded by looking at all objects after all paths.", "anchors": ["signify/authenticode/signed_pe.py:362-465", "signify/authenticode/structures.py:427-588", "signify/x509/context.py:133-410"]}
{"id": "C62", "title": "Verification is repeatable", "statement": "The result of verifying a file without passing contexts does not depend on what was verified before in the same process, of this file or others, with whatever arguments, parsers and outcomes.", "quantifier": "all histories of verifications, all files, arguments, modes, stores and contexts; the trusted store exists", "why_tests_cant": "State that survives a verification (the trusted store that is loaded lazily, the contexts, the position of the file) matters only for particular sequences of calls; there are infinitely many.", "anchors": ["signify/x509/context.py:133-167", "signify/authenticode/signed_pe.py:362-465", "signify/authenticode/structures.py:427-588"]}
{"id": "C63", "title": "The multi-verify modes are ordered by strength", "statement": "For a file verified without passing contexts and with a readable trusted store: every mode has a result; if mode 'all' accepts, then 'first' and 'any' return the first of the signatures it returns and 'best' the first among those with the strongest digest algorithm; if 'first' accepts, 'any' returns the same; if 'any' rejects with an Exception, so does every mode. Neither of 'first' and 'best' implies the other.", "quantifier": "all files, parsers, libraries, supplied hashes and other arguments", "why_tests_cant": "The relation between two modes is a statement about pairs of runs on every file, including those where a run ends with errors in the middle.", "anchors": ["signify/authenticode/signed_pe.py:362-465"]}
{"id": "C64", "title": "Acceptance is characterised exactly, for any candidates and modes", "statement": "AuthenticodeSignedData.verify succeeds for a given hash (or that of the file, if none is given), with given chains, exactly if the keyword arguments are acceptable, algorithms agree, the digest in SpcInfo is the hash, messageDigest is that of the content, and the certificates named by the signer, without duplicates and tried in order, yield these chains and at least one: a certificate counts if its key verifies the encrypted digest and its chain is accepted and vouched for at the time then due; it is passed over only with an error that can be reported; and the time due is that of the countersignature from the first certificate without lifetime signing on, and usages given by an iterator count for the first certificate only. A countersignature that does not hold rejects in mode 'strict' and is disregarded otherwise. A file is accepted exactly if its signatures can be read, there is one, supplied hash names are known, and those chosen by the mode are accepted in this sense: all of them, or else the first that is. Everything else raises an Exception for a SignedData, never a chain.", "quantifier": "all SignedData, files, parsers, stores, trust lists, contexts, keyword arguments, validators and cryptographic libraries raising ordinary exceptions; readable stores, different certificates being different objects; for files, contexts that can be shared between signatures", "why_tests_cant": "An exact characterisation quantifies over everything that must be accepted and everything that must not, with any number of candidates and every combination of errors among them.", "anchors": ["signify/authenticode/structures.py:AuthenticodeSignedData.verify", "signify/authenticode/signed_pe.py:SignedPEFile.verify", "signify/pkcs7/signerinfo.py:SignerInfo.verify", "signify/pkcs7/signerinfo.py:SignerInfo._verify_issuer", "signify/x509/context.py:VerificationContext.verify", "signify/x509/context.py:VerificationContext.verify_trust"]}
{"id": "C65", "title": "Signers and time-stamp tokens verified on their own", "statement": "SignerInfo.verify(context, signing_time) returns exactly the chains that the certificates named by the signer yield when tried in order, the signing time replacing the timestamp of the context, for AuthenticodeSignerInfo not for lifetime signing certificates. RFC3161SignedData.verify succeeds exactly if messageDigest is the digest of the TSTInfo and its signer has a chain in the given context; without a context, in one with the trusted store, the certificates of the token, usage time_stamping and no timestamp, so that a token of an expired certificate is only accepted with a context at the time it states. Content that does not match raises AuthenticodeCounterSignerError; everything else is an Exception.", "quantifier": "all signers, tokens, contexts (including usages from an iterator), readable stores, libraries raising ordinary exceptions", "why_tests_cant": "Exactness quantifies over all contexts, candidates and errors.", "anchors": ["signify/pkcs7/signerinfo.py:SignerInfo.verify", "signify/pkcs7/signerinfo.py:SignerInfo._build_chain", "signify/authenticode/structures.py:RFC3161SignedData.verify", "signify/authenticode/structures.py:AuthenticodeSignerInfo._verify_issuer"]}
{"id": "C66", "title": "Components of a name are found by any of their type's names", "statement": "get_components(type) yields the values of exactly those attributes whose type is denoted by the argument, as object identifier, asn1crypto name or short label, in reversed order; a label and its object identifier find the same; equal names have equal components; every listed component is found under the type it is listed with; and every attribute of the name can be found.", "quantifier": "all names, all types", "why_tests_cant": "Names with several attributes of one type, with types unknown to the table, and with several attributes in one RDN.", "anchors": ["signify/x509/certificates.py:CertificateName.get_components", "signify/x509/certificates.py:CertificateName.rdns"]}
{"id": "C67", "title": "Decoding on demand changes nothing but when it fails", "statement": "asn1crypto decodes a value only when it is read, so that a malformed part may raise in the middle of the parsing, or never if it is not read. Every outcome of opening an envelope, listing the signatures of a file or verifying it under decoding on demand is an outcome under complete decoding, and conversely; opening an envelope raises only what reading one of its parts raises or one of the parser's own exceptions; and of several extensions with extended key usages the last one counts.", "quantifier": "all trees of values any part of which may fail to decode, all depths, all files", "why_tests_cant": "Every field of every nested structure can be the malformed one, and whether it matters depends on whether and when it is read.", "anchors": ["signify/pkcs7/signeddata.py:SignedData.from_envelope", "signify/pkcs7/signerinfo.py:SignerInfo._parse", "signify/authenticode/structures.py:AuthenticodeSignerInfo._parse", "signify/x509/certificates.py:Certificate._parse"]}
{"id": "C68", "title": "The ASN.1 declarations are unambiguous: what is written can be read", "statement": "For every structure declared in signify/asn1 and every structure of the library that is read, the octets of a value (any definite-length encoding by the declaration) are decoded to that value, whatever follows; two values never share an encoding; a field read on demand is the field that was written; and SpcInfo and TSTInfo hold what was written in their structures. Each field and alternative begins with the identifier octet that its ASN.1 module gives it, and exactly the fields that are optional there may be absent.", "quantifier": "all values of all declared structures, of any size and nesting, all definite-length encodings, all trailing octets", "why_tests_cant": "Optional and default fields and choices combine to unboundedly many encodings; an ambiguity shows only for particular absent fields.", "anchors": ["signify/asn1/spc.py", "signify/asn1/ctl.py", "signify/authenticode/structures.py:SpcInfo._parse", "signify/authenticode/structures.py:TSTInfo._parse"]}
{"id": "C69", "title": "Opening and verifying arbitrary octets", "statement": "Whatever octets are in the certificate table: parsing an envelope gives a signature or raises one of ten exception classes (each of which does occur); verifying a file terminates and raises a listed class, the AttributeError of an unknown hash name, or what a cryptographic library or store raised; nesting inside an envelope is decoded to any depth.", "quantifier": "all byte strings, all recursion limits, all files, stores and contexts, all behaviours of the libraries", "why_tests_cant": "There are unboundedly many malformed encodings at every place of every structure; tests feed a handful.", "anchors": ["signify/pkcs7/signeddata.py:SignedData.from_envelope", "signify/asn1/spc.py", "signify/pkcs7/signeddata.py:SignedData._parse", "signify/authenticode/signed_pe.py:SignedPEFile.verify"]}
{"id": "C70", "title": "The signed octets determine what is vouched for", "statement": "Through the decoding of the envelopes: the octets over which a signature is made determine message digest, content type and signing time; signed octets and contents of timestamp tokens and of Authenticode signatures are never the same; the hashed content octets determine SpcInfo (in both encodings of the content) and TSTInfo; and two files accepted for the same signed octets have the same hashed bytes, unless the hash function has a collision among the octets at hand.", "quantifier": "all pairs of envelopes and files, at all nesting depths, all hash functions and libraries", "why_tests_cant": "It compares every pair of envelopes and files that any attacker may construct around one signature.", "anchors": ["signify/pkcs7/signerinfo.py:SignerInfo._parse", "signify/pkcs7/signerinfo.py:SignerInfo._encode_attributes", "signify/pkcs7/signeddata.py:SignedData._parse", "signify/authenticode/structures.py:SpcInfo._parse", "signify/authenticode/structures.py:TSTInfo._parse"]}
{"id": "C71", "title": "Errors of opening a trust list", "statement": "Opening the octets of a certificate trust list, as a file or as an envelope, fails only with ValueError, ParseError, KeyError, TypeError, IndexError, struct.error or OverflowError, or, for a file that is not SignedData, CertificateTrustListParseError.", "quantifier": "all byte strings", "why_tests_cant": "Only one genuine trust list is in the test data; nothing there exercises damaged or hostile lists.", "anchors": ["signify/authenticode/authroot.py:CertificateTrustList.from_stl_file", "signify/authenticode/authroot.py:CertificateTrustList._parse", "signify/authenticode/authroot.py:CertificateTrustSubject._parse", "signify/asn1/ctl.py:SetOfSpecificOctetString.parse", "signify/asn1/ctl.py:FileTime.native", "signify/pkcs7/signeddata.py:SignedData._parse"]}
{"id": "C72", "title": "A trust list is read as it is written", "statement": "A file that holds a trust list in DER, as the content itself (version 1) or inside an OCTET STRING (other versions), is opened iff both digest algorithms are acceptable without parameters and every attribute has a value and convertible times; its fields and subjects are then those written (UTF-16 names, key purposes, FILETIMEs, last entry and last attribute win), and it accepts a chain iff the last entry written for the digest of the root allows it at the time and for the usages asked for.", "quantifier": "all lists, entries, attributes and files, all chains, times, usages and hash functions", "why_tests_cant": "The meaning of each of the ten attribute types and of duplicates in entries would need a list for every combination.", "anchors": ["signify/authenticode/authroot.py:CertificateTrustList._parse", "signify/authenticode/authroot.py:CertificateTrustSubject._parse", "signify/authenticode/authroot.py:CertificateTrustList.verify_trust", "signify/asn1/ctl.py:CertificateTrustList", "signify/asn1/ctl.py:SubjectAttribute", "signify/asn1/ctl.py:CTLString", "signify/pkcs7/signeddata.py:SignedData.content"]}
{"id": "C73", "title": "Primitive values mean what the standards say", "statement": "The values signify takes from an encoding are those of the standards: a serial number or version is the two's complement number; an object identifier is written with the components it encodes, no two identifiers look the same, and the names that signify compares (digest algorithms, content types, attributes, key purposes) belong exactly to their registered identifiers; a text is read as a UTCTime or GeneralizedTime iff it has that form (with seconds, minutes, zone and fraction left out where that is allowed) and its date exists, and is then the instant counted in days of the Gregorian calendar, with its zone and its fraction rounded to microseconds; UTF8String, BMPString, UniversalString and IA5String are read iff well formed, as the text they encode.", "quantifier": "all octets of any length, all component lists, all years, all texts", "why_tests_cant": "Leap years, zones, two-digit years, surrogates, overlong forms and multi-octet components each need their own inputs; tests only see the values in a few signed files.", "anchors": ["signify/pkcs7/signerinfo.py:SignerInfo._parse", "signify/pkcs7/signerinfo.py:SignerInfo._parse_attributes", "signify/pkcs7/signeddata.py:SignedData._parse", "signify/asn1/hashing.py", "signify/asn1/spc.py", "signify/authenticode/authroot.py", "signify/x509/certificates.py"]}
{"id": "C74", "title": "Nothing is verified with a store that cannot be read", "statement": "As long as a store of a verification context has files that cannot be loaded, no signer, time-stamp token, signature or file is verified with that context: a signature is accepted iff all stores can be read and it is authentic.", "quantifier": "all contexts, stores, positions of the damaged file, signatures, files and modes, all behaviours of the libraries", "why_tests_cant": "No test has a store that fails to load; which operation meets the failure first depends on the candidates, countersignatures and modes.", "anchors": ["signify/x509/context.py:FileSystemCertificateStore._load", "signify/x509/context.py:VerificationContext.verify", "signify/pkcs7/signerinfo.py:SignerInfo._build_chain", "signify/authenticode/structures.py:AuthenticodeSignedData.verify", "signify/authenticode/signed_pe.py:SignedPEFile.verify"]}
{"id": "C75", "title": "Certificates in PEM files are all read, and nothing else is", "statement": "Certificate.from_pems yields, of every text that is a bundle of PEM blocks as in RFC 7468 (with any explanatory text, blank lines, line lengths, line ends and labels), exactly the certificates of the blocks, in order; of a text without a block it raises ValueError; every certificate that it yields, of any octets at all, is decoded from the base 64 contents of a block of that text; it raises nothing but ValueError, and from_pem never lets the StopIteration of next() out. A FileSystemCertificateStore over such files is readable and holds all their certificates; one file without a block makes it unreadable. A text with a block that is not closed is rejected.", "quantifier": "for all texts, bundles, numbers and lengths of blocks, all files of a location", "why_tests_cant": "The tests read the one bundle that is shipped. The texts that are misread are those in which a line is missing or in which other text looks like a frame, at any position of an unbounded file.", "anchors": ["signify/x509/certificates.py:166-177", "signify/x509/context.py:153-167"]}
{"id": "C76", "title": "Certificates are read as they are written", "statement": "When octets hold an X.509 certificate (RFC 5280) in any admissible encoding, Certificate.from_der yields exactly the certificate the decoded value means, and fails exactly when it means none: serial number (two's complement), issuer and subject with all their attributes in order, both ends of the validity period, key algorithm, key parameters and key bits, and the purposes of the last extended key usage extension (none if there is none). A certificate whose agency information or financial criteria extension is not of its declared type, or has a text that cannot be decoded, is not read. The certificate keeps exactly its own octets, without anything that follows. The names of object identifiers on which the library takes decisions stand for exactly the registered identifiers.", "quantifier": "for all octet strings, all certificate values, all encodings with long or short lengths, names of any number of parts and extensions of any number, and anything that may follow", "why_tests_cant": "Tests read a few real certificates; a wrong field, a missed optional field or a mistaken identifier shows only with shapes of certificates that the tests do not have.", "anchors": ["signify/x509/certificates.py:101-132", "signify/x509/certificates.py:161-164", "signify/asn1/spc.py:302-330"]}
{"id": "C77", "title": "Signatures are read as they are written", "statement": "When octets hold a signature of CMS and Authenticode in any admissible encoding, AuthenticodeSignedData.from_envelope, which decodes them part by part and only when a part is needed, yields exactly what it yields for the decoded value: the same parsed signature or the same exception. This covers the content (embedded directly in version 1, in an OCTET STRING above), its digest and digest algorithm, the certificates, and for each signer its identifier, algorithms, signature, signed attributes (both their values and the octets that are signed) and unsigned attributes, with countersignatures, timestamp tokens and nested signatures to any depth. Each part that someone encodes is found again by the library.", "quantifier": "for all octet strings that hold such a value, all encodings with long or short lengths, all nestings, all numbers of signers, attributes, values and certificates, and anything that may follow", "why_tests_cant": "Tests read a few dozen signed files; a field that is mixed up, an attribute that is decoded as the wrong type, or a part that is lost at a depth of nesting shows only for signatures the tests do not contain.", "anchors": ["signify/pkcs7/signeddata.py:86-148", "signify/pkcs7/signerinfo.py:143-269", "signify/authenticode/structures.py:200-275", "signify/authenticode/structures.py:358-425", "signify/authenticode/structures.py:665-715", "signify/asn1/spc.py"]}
{"id": "C78", "title": "Times without a timezone verify nothing", "statement": "asn1crypto turns a GeneralizedTime without a zone into a naive datetime, and a caller may pass one; the validators refuse such a moment. No certificate chain is ever accepted at a naive datetime: every chain that verify returns was validated at the current time or at one with a timezone. A countersignature whose time has no zone never counts: in strict mode verification fails with AuthenticodeCounterSignerError, in permit mode it ends as it would without the countersignature. A timestamp without a zone that the caller passes leads to an error of the verification.", "quantifier": "for all signatures, countersignatures, contexts, stores, trust lists and answers of the external libraries, provided that the validator cannot be set up with a naive moment", "why_tests_cant": "The tests have no file with a zone-less time and never pass a naive timestamp; the outcome depends on where in the verification the datetime is compared or handed on.", "anchors": ["signify/x509/context.py:313-374", "signify/authenticode/structures.py:553-587", "signify/authenticode/authroot.py:298-395", "signify/pkcs7/signerinfo.py:295-316"]}
{"id": "C79", "title": "The verdict on a file follows from its octets", "statement": "Take a file by its octets alone: PE headers that locate a certificate table, a table that is the encoding of entries, entries of type 2 that hold SignedData structures encoded as ASN.1 says (in any admissible encoding), read as signatures. Then iter_signed_datas yields exactly these signatures with those nested in them, in order; SignedPEFile.verify returns exactly if the names of the given hashes are known and the signatures chosen by the mode are authentic, with these signatures and their chains as its result; otherwise it raises an exception.", "quantifier": "for all files, tables, envelopes and trees of nested signatures of any size, all modes, arguments and lawful cryptographic libraries, contexts that can be shared and stores that can be read and have no two certificates of one identity; nesting up to the recursion limit", "why_tests_cant": "A test has one file; that nothing is lost or added between the octets and the verdict (headers, table, decoding on demand, parsing, selection, verification) for every file needs a composition of proofs about all layers.", "anchors": ["signify/authenticode/signed_pe.py:216-249", "signify/authenticode/signed_pe.py:266-325", "signify/authenticode/signed_pe.py:362-464", "signify/authenticode/structures.py:665-715", "signify/pkcs7/signeddata.py:86-148"]}
{"id": "C80", "title": "The command line prints the digests of the files", "statement": "fingerprinter.main prints for each named file, in the order of the names, its name and the md5, sha1, sha256 and sha512 digests of its whole content under 'generic'; if the file is a usable PE image, before them the md5, sha1 and sha256 digests of the content without checksum, certificate table and its directory entry under 'authentihash'. Descriptions and hash names are in alphabetical order. At the first file that cannot be opened it stops with that exception, after printing its name.", "quantifier": "for all lists of names, all contents of any size, all hash functions and all ways in which opening fails", "why_tests_cant": "The command line has no test; that two hashers registered on overlapping ranges of one file do not disturb each other and that sorting and formatting lose no line is claimed for every content.", "anchors": ["signify/fingerprinter.py:299-318"]}
{"id": "C81", "title": "The listing of a trust store is complete and ordered, and certificates are named unambiguously", "statement": "Running signify.authenticode.structures as a script lists every certificate of the trust store exactly once, numbered from 1, in the order of the ends of their validity, certificates with the same end in the order of the store. Each line has the number, the end, the subject, the serial number and the SHA-1 fingerprint. It fails only if the store cannot be read (nothing is listed), if naive and aware times are mixed (TypeError, nothing is listed) or if a subject is not text (TypeError, the certificates before it are listed). Two certificates with the same str() have the same subject components, serial number and SHA-1 digest.", "quantifier": "for all stores of any size, all certificates and hash functions", "why_tests_cant": "The script has no test; completeness and stability are claims about every store, and the unambiguity of str() about every pair of certificates with names of any content.", "anchors": ["signify/authenticode/structures.py:767-775", "signify/x509/certificates.py:134-138"]}
{"id": "C82", "title": "A malformed name is harmless unless it is compared or printed, and then it is reported", "statement": "asn1crypto decodes names when they are asked for. A name whose RDNs all have a decodable first attribute behaves as the decoded name, whatever follows the first attributes. Of any other name the components after the last broken RDN come out and then its exception; comparing it with a name or printing it raises that exception, comparing certificates raises exactly if the issuers (or, with equal issuers and serial numbers, the subjects) cannot be decoded. The search for a signer by issuer and serial number yields every certificate it is for, and is disturbed only by certificates with that very serial number whose issuer is broken. (The wish that the search always finds the certificate it is for is false: refuted.)", "quantifier": "for all names, with any part of them undecodable, all certificates and lists of certificates", "why_tests_cant": "No test file has a malformed name, and the places where one can be broken, with the order in which names are compared, are too many to sample.", "anchors": ["signify/x509/certificates.py:CertificateName", "signify/x509/certificates.py:Certificate.__eq__", "signify/x509/context.py:CertificateStore.find_certificates"]}
{"id": "C83", "title": "What is shown of a signature is what was signed", "statement": "The program name, the link to more information, the publisher and the statement types of a signature are exactly those that its signed attributes tell (those of the last attribute of their type; an attribute without exactly one value is an AuthenticodeParseError), and the flags and the publisher of the image exactly those of its content (the bits that are set and used, the default when absent). For every envelope that is parsed, whatever its octets, and for every signature nested in it, they can be shown; two signatures with equal signed attributes show the same, and the same image if both contents have the signed digest, unless the digests collide. Nothing that is unsigned has an influence.", "quantifier": "for all octets, all envelopes with any nesting, all encodings of texts, links and bit strings", "why_tests_cant": "The tests look at the program name of a few files; that no unsigned part of any envelope can change what is shown is a statement about pairs of arbitrary octet strings.", "anchors": ["signify/authenticode/structures.py:AuthenticodeSignerInfo._parse", "signify/authenticode/structures.py:SpcInfo._parse", "signify/asn1/spc.py:SpcSpOpusInfo", "signify/asn1/spc.py:SpcPeImageFlags"]}
{"id": "C84", "title": "Verification with names that cannot be decoded", "statement": "asn1crypto decodes the components of a distinguished name when they are asked for. When all names can be decoded, verification of signatures and files is the same, outcome and effects, as with decoded names. When some cannot: a signer is verified with the same outcome and effects or with the exception of such a name; a signature likewise, except that a countersignature whose check meets such a name is refused in the strict mode and passed over in the others. Nothing is accepted that is not authentic, in a mode that passes over countersignatures possibly without its countersignature. Names of certificates that are in no trusted store and do not have a signer's serial number have no influence at all.", "quantifier": "for all names with any number of malformed parts, all certificates, stores, contexts, signatures, files and modes, all behaviours of the libraries", "why_tests_cant": "No test has a certificate with a malformed name; the claim is about the position of such a name among arbitrarily many certificates and about all ways in which it can be malformed.", "anchors": ["signify/x509/certificates.py:CertificateName.get_components", "signify/x509/context.py:VerificationContext.find_certificates", "signify/x509/context.py:CertificateStore.is_trusted", "signify/pkcs7/signerinfo.py:SignerInfo._build_chain", "signify/authenticode/structures.py:AuthenticodeSignedData.verify"]}
{"id": "C85", "title": "Structures are read exactly from their encodings", "statement": "Octets are cut into values exactly as the basic encoding rules of X.690 say: tags of any size in the fewest octets, lengths in the short, long and indefinite form, indefinite ones nested up to ten levels in the first. For each structure declared in signify/asn1 and those of the library it is made of, some octets are read as a value if and only if they begin with an encoding of that value, and are a ValueError otherwise; the only liberty is that what follows a value inside an explicit tag is overlooked.", "quantifier": "for all octets, all declared structures and all values, any tag numbers, lengths and nesting", "why_tests_cant": "The tests read files that were written by signing tools; that nothing is read from octets that do not encode it is a statement about all octets.", "anchors": ["signify/asn1/spc.py:SpcIndirectDataContent", "signify/asn1/spc.py:SpcLink", "signify/asn1/ctl.py:CertificateTrustList", "signify/authenticode/structures.py:AuthenticodeSignedData.from_envelope"]}
{"id": "C86", "title": "Exactly the encodings of well-formed signatures are accepted", "statement": "Octets are accepted as an Authenticode signature if and only if they begin with an encoding of a ContentInfo with a SignedData that has one supported digest algorithm without parameters, an SpcIndirectDataContent with the expected fields, certificates, no revocation lists and one SignerInfo with one content type and one message digest; at most one countersignature of one of the two kinds, itself well-formed; and well-formed nested signatures. The issuer, serial number, digests, times, certificates, countersigner and nested signatures of the resulting object are the ones encoded, and nothing else. The same holds of a certificate.", "quantifier": "for all octets, of any size and with nested signatures and countersignatures of any depth", "why_tests_cant": "The tests read files of signing tools, and a few broken ones; that nothing else is accepted, and that nothing is made up, is a statement about all octets.", "anchors": ["signify/authenticode/structures.py:AuthenticodeSignedData.from_envelope", "signify/pkcs7/signeddata.py:SignedData._parse", "signify/pkcs7/signerinfo.py:SignerInfo._parse", "signify/authenticode/structures.py:AuthenticodeSignerInfo._parse", "signify/authenticode/structures.py:RFC3161SignedData._parse"]}
{"id": "C87", "title": "Exactly which files are verified, from their octets on", "statement": "A file is verified if and only if it is a usable PE image with a certificate table whose entries can be followed to its end, all of revision 2, at least one of type 2, where the octets of every entry of type 2 begin with an encoding of a well-formed signature; the names of the given hashes are known; and the signatures that the mode chooses, nested ones included, are authentic. If parse errors are ignored, the entries need only be followed to a bad header or another revision. The list of signatures of a file is unique.", "quantifier": "for all files, arguments, contexts and stores, and cryptographic libraries that are lawful", "why_tests_cant": "The tests verify some files of signing tools; that no other octets are verified, and all of these are, is a statement about all octets.", "anchors": ["signify/authenticode/signed_pe.py:SignedPEFile.verify", "signify/authenticode/signed_pe.py:SignedPEFile.iter_signed_datas", "signify/authenticode/signed_pe.py:SignedPEFile._parse_cert_table", "signify/authenticode/structures.py:AuthenticodeSignedData.from_envelope"]}
{"id": "C88", "title": "What is verified has its evidence in the octets of the file and of the trusted directory", "statement": "If a file is verified with default contexts, without supplied hashes and with a store over a directory of PEM files, then that store is trusted, the result is not empty, and for each signature in it: the certificate table of the file has an entry whose octets begin with the encoding of it, or of one it is nested in; the hash of the image is in its content, the content is what its signer signed; and every chain returned was found by the validator for a certificate the signer names whose key verifies the signature, for the purpose of code signing, with nothing but certificates in blocks of files of the directory as trust anchors, is made of such certificates and of those shipped with the signature, begins with one that equals a certificate in such a block, and is admitted by the trust list if there is one. So nothing is verified with a directory without such a block.", "quantifier": "for all files, directories, arguments, depths, numbers of steps, and cryptographic libraries", "why_tests_cant": "The tests verify some files with the certificates they expect; that no file at all is verified on the strength of anything else than the octets of the file and of the directory is a statement about all of them.", "anchors": ["signify/authenticode/signed_pe.py:SignedPEFile.verify", "signify/authenticode/structures.py:AuthenticodeSignedData.verify", "signify/x509/context.py:149-175", "signify/x509/context.py:VerificationContext.verify", "signify/x509/certificates.py:Certificate.from_pems"]}
{"id": "C89", "title": "Exactly the encodings of well-formed trust lists are opened", "statement": "Octets are opened as a certificate trust list iff they begin with a basic (BER) encoding of a signed-data envelope with one digest algorithm and content type 1.3.6.1.4.1.311.10.1 whose content is a list (the content itself in version 1, inside an OCTET STRING otherwise), with readable certificates, acceptable algorithms without parameters and well-formed attributes; the signers, the revocation lists, and the version and extensions of the list are not looked at. What is read is that list, and no other. A file that is verified with a trusted directory and a list opened from octets has the evidence of C88, and the last entry for the root of every chain in the list that these octets encode allows code signing at the time given or stated, or now.", "quantifier": "for all octet strings; for all files, directories, arguments, depths, numbers of steps, and cryptographic libraries", "why_tests_cant": "The tests open the lists that the project ships; that no other octets at all are opened, and with no other meaning, is a statement about all octet strings.", "anchors": ["signify/authenticode/authroot.py:CertificateTrustList._parse", "signify/authenticode/authroot.py:CertificateTrustList.from_stl_file", "signify/authenticode/authroot.py:CertificateTrustSubject._parse", "signify/authenticode/authroot.py:CertificateTrustList.verify_trust", "signify/asn1/ctl.py:CertificateTrustList", "signify/pkcs7/signeddata.py:SignedData.content"]}
{"id": "C90", "title": "What a verification without arguments guarantees", "statement": "The module can be imported iff the trust list of mscerts can be read and is an encoding of a well-formed list. If SignedPEFile(f).verify() then succeeds without any arguments, the result is not empty, and for each of its signatures: the certificate table of the file holds its encoding or that of one it is nested in; its digest is the Authenticode hash of the file; its content is signed; for every chain the validator was given the default options, only the certificates of the directory as trust anchors, the purpose of code signing and no time, or the one that the countersignature states; the root of the chain is in the directory, and the last entry for it in the list that the octets encode allows code signing. If the signature has a countersignature, that covers the signature, and has such a chain for time stamping at the time it states. Nothing is verified with an empty directory or a list without entries. Exactly the files with a signature that is authentic under the documented defaults are verified, and the first such signature is the result, provided that the directory can be read, its certificates can be told apart, and the libraries raise only their documented exceptions.", "quantifier": "for all files, trust lists and directories as octets, depths, numbers of steps, and cryptographic libraries", "why_tests_cant": "The tests verify some files with the list and directory of one release of mscerts; that success always implies all of this evidence is a statement about all files, lists and directories.", "anchors": ["signify/authenticode/structures.py:TRUSTED_CERTIFICATE_STORE", "signify/authenticode/structures.py:AuthenticodeSignedData.verify", "signify/authenticode/signed_pe.py:SignedPEFile.verify", "signify/x509/context.py:VerificationContext.__init__", "signify/authenticode/authroot.py:CertificateTrustList.from_stl_file"]}
