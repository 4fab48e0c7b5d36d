# Formal model of signify (Rocq / Coq 8.16.1)

## Approach

The model is a shallow, executable Gallina re-reading of `/repo/signify`, function by
function, branch by branch, with

* exceptions as values (`res A := Ok a | Err e`, `Base.v`) in a class hierarchy that
  `except` clauses consult (`catches`);
* mutable objects as explicit state: the file object with its position (`ModelFile.v`), a
  heap of range lists (`ModelFingerprint.v`), heaps of certificate stores and of verification
  contexts (`world`, `ModelContext.v`), caller-owned dicts returned next to the result;
* generators as resumable values (`cert_gen`) or as loops over a body that runs between two
  yields (`for_certificates`);
* loops as structural recursion or explicit fuel.  Fuel exhaustion is `None`, or the
  exception `out_of_fuel` that no `except` clause of the model catches; theorems speak about
  all runs that are not out of fuel, or prove that enough fuel exists (`terminates_with`).

Libraries that signify calls but does not implement are *parameters*: the fields of the record
`env` (`ModelX509.v`: hashlib digests, oscrypto key loading and signature checks,
certvalidator, the clock, `hasattr(hashlib, …)`) and `loader` (asn1crypto's
`ContentInfo.load`).  Every theorem quantifies over them, so it holds for every behaviour of
those libraries unless it states a hypothesis about them (e.g. "collision-free").

File kinds in `rocq/theories`:

* `Base.v`, `Bytes.v`, `Monad.v` – exceptions, dicts, byte strings, state monad
* `Model*.v` – the model; every definition cites file and lines of `/repo`; no proofs
* `Spec*.v` – small independent specifications used in the statements of theorems
* `Proofs*.v` – lemmas
* `Example*.v` – an executable environment (MD5, SHA-1, SHA-2, RSA, path building) and the
  repository's tests run in the model on the files of `tests/test_data`; no theorem depends
  on them
* `Properties*.v` – the property theorems (`exact lemma`), each followed by
  `Print Assumptions`, and `Example`s that meet the hypotheses on concrete data

## Trusted base

* Coq 8.16.1's kernel (and its VM: some `Example`s and `_refuted` witnesses use
  `vm_compute`).
* Axioms: **none**.  `Print Assumptions` prints "Closed under the global context" for every
  theorem in the `Properties*.v` files.  Only the standard library is imported (`List`,
  `ZArith`, `String`, `Ascii`, `Byte`, `Bool`, `Lia`, `Zify*`, `Permutation`, `Sorting`, …).  A check of
  the loaded libraries (`coqchk -o`) also lists the axioms of `Coq.ssr.ssrunder`, because the
  standard library's `ssreflect` plugin files are loaded by `Lia`'s dependencies; no theorem
  uses them.
* No `Admitted`, `admit`, `Axiom`, `Parameter`, section-less `Variable`/`Hypothesis`, no
  functors or module types, no kernel check switched off.
* The reading of the Python code: nothing of it was executed, the link between code and
  theorems is the text of `Model*.v`, whose comments cite the lines modelled.  As a check of
  that reading the model itself was run on the repository's test files (`ExampleRepo.v`,
  `ExampleMultiple.v`, `ExampleLifetime.v`): it reproduces the outcomes the repository's
  tests expect.

## What is modelled

| file of /repo/signify | modelled | not modelled |
|---|---|---|
| `exceptions.py` | the whole class hierarchy (`Base.v`) | – |
| `fingerprinter.py` | `Range`, `Finger`, `Fingerprinter`, `AuthenticodeFingerprinter` (lines 39–296): aliasing of range lists, file position, partial effects before an exception; `main` (`ModelMain.v`) | – |
| `authenticode/signed_pe.py` | `_parse_pe_header_locations`, `get_authenticode_omit_sections`, `_parse_cert_table` and `iter_signed_datas` (as resumable generators), `_calculate_expected_hashes`, `verify`, `explain_verify`, constructor | log messages; numbers in error messages |
| `authenticode/structures.py` | `AuthenticodeVerificationResult.call`, `AuthenticodeSignerInfo._parse/_verify_issuer`, `SpcInfo._parse`, `AuthenticodeSignedData._parse/verify/explain_verify`, `RFC3161SignerInfo`, `TSTInfo._parse`, `RFC3161SignedData`; what is stored of opus info, statement type and image data (`ModelShown.v`); the script at its end (`ModelListing.v`); the default store of the module and the default arguments (`ModelDefault.v`) | `TRUSTED_CERTIFICATE_STORE_NO_CTL` (any store is allowed in its place) |
| `authenticode/authroot.py` | all of it: `CertificateTrustList._parse`, `subjects`, `verify_trust`, `find_subject`, `from_stl_file`; `CertificateTrustSubject._parse/verify_trust` | reading the file named by a path |
| `pkcs7/signeddata.py` | `from_envelope`, `_parse`, `content_digest`, with complete decoding and with decoding on demand (`ModelLazy.v`) | – |
| `pkcs7/signerinfo.py` | `_parse`, `check_message_digest`, `_parse_attributes`, `_encode_attributes` (DER of SET OF), `_verify_issuer_signature`, `_verify_issuer`, `_build_chain`, `verify`, `potential_chains`, `CounterSignerInfo` | – |
| `x509/certificates.py` | `Certificate._parse` (`ModelLazy.v`), `from_der` (`ModelDecode.v`), `from_pem` and `from_pems` (`ModelPem.v`), equality, hash, `str` (`ModelListing.v`), fingerprints, `verify_signature`; `CertificateName` completely, also with undecodable components (`ModelName.v`) | `Certificate.verify/potential_chains`, which only call the context's methods of the same name |
| `x509/context.py` | `CertificateStore`, `FileSystemCertificateStore`, `VerificationContext` completely | list methods of a store other than `append`/`extend`/iteration |
| `asn1/ctl.py` | `FileTime.native/set` with exact IEEE double rounding; the ASN.1 declarations as data (`ModelSpc.v`); decoding trust lists from octets with `SetOfSpecificOctetString`, `CTLString` and the key purposes (`ModelStl.v`) | – |
| `asn1/hashing.py`, `asn1/helpers.py` | completely | – |
| `asn1/spc.py` | the ASN.1 declarations and OID tables as data (`ModelSpc.v`), interpreted by a decoder of BER/DER (`ModelDer.v`, `ModelDecode.v`) written after asn1crypto's documented behaviour | – |

Simplifications (each also stated in the comment of the definition concerned):

1. asn1crypto decodes lazily: a malformed value may raise `ValueError` in the middle of
   signify's parsing.  In `ModelPkcs7.v` the decoded value (`raw_ci` etc.) is given completely;
   what is malformed is rejected by the `loader`.  `ModelLazy.v` models the parsing with
   decoding on demand, and C67 proves that every outcome there is one of the model with some
   `loader`, so that the theorems, which hold for every `loader`, apply.  What remains: the
   components of a distinguished name are decoded with the name, not when names are compared;
   `ModelName.v` models the operations on names, certificates and stores with names decoded on
   demand (C82), and `ModelDemand.v` verification as a whole with them; C84 relates it to the
   verification with decoded names that the other theorems are about.
   `ModelDecode.v` gives one concrete instance (`der_loader`) of the parameter: a decoder for
   BER/DER driven by the declarations of `asn1/spc.py` and of the asn1crypto classes signify
   uses.
2. The answers of the external functions depend only on their arguments; the clock does not
   advance within one verification.
3. The texts of exceptions are abbreviated; the class is exact.  Where formatting a message
   can itself raise (`str(certificate)` with a non-string RDN value, the wrong key
   `digestAlgorithms` of `signeddata.py:112`) this is modelled.
4. Python's recursion limit is the parameter `depth` of the parser (number of nested
   constructors); frame counts are not modelled.
5. A datetime is aware or naive, with the microseconds since 1601 (of its UTC or of its
   face value); the other timezones are normalised to UTC when they are read.
6. Sets whose iteration order Python does not specify are lists in insertion order; no
   theorem depends on the order (C20/C22 quantify over lookups).
7. Nobody else writes to the file or to the locations of stores while an operation runs;
   histories in which the caller does so *between* operations are covered where the property
   is about them (C04, C16, C43, C44).
8. An RDN is not empty; attribute values are strings or byte strings.

## Findings

The following statements of `properties.jsonl` are false of the code; every one has a
`…_refuted` theorem whose witness is computed by the model.

| property | what happens | code |
|---|---|---|
| C05 | `hash()` accepts two registrations under one description | fingerprinter.py:258-269 |
| C06 | `hashes()` empties the caller's list of ranges; a shared list object gives a wrong digest for a later call | fingerprinter.py:63, 102-104 |
| C07 | block size 0, or a reversed range next to another finger, loops for ever | fingerprinter.py:157-180, 228-237 |
| C13 | the authentihash of two files agrees although bytes moved across the certificate table | fingerprinter.py:277-296 |
| C21 | `ignore_parse_errors=True` does not ignore AuthenticodeParseError etc.: a later broken entry hides an earlier valid signature | signed_pe.py:303-325 |
| C22 | a key of `expected_hashes` unknown to hashlib raises AttributeError | signed_pe.py:351 |
| C23 | the caller's `expected_hashes` dict is extended; reusing it makes another properly signed file fail | signed_pe.py:357-358 |
| C29 | in 'permit' mode a broken countersignature can decide the outcome: shared context object (timestamp stays set), unreadable store | structures.py:566-577 |
| C32 | lifetime signing is ignored if an earlier candidate without the usage has set the context's timestamp | structures.py:278-292, signerinfo.py:308-313 |
| C33 | a caller-supplied context carries the timestamp of one signature over to the next | signerinfo.py:310-311 |
| C35 | `extended_key_usages` given as a generator is exhausted before the trust list reads it | context.py:364-368, authroot.py:314-319 |
| C36 | a candidate whose key cannot be loaded aborts the search although another one verifies | certificates.py:215, signerinfo.py:352 |
| C38 | names differing in the second attribute of a multi-valued RDN are equal | certificates.py:332 |
| C66 | `get_components` does not find the second attribute of a multi-valued RDN | certificates.py:332 |
| C68 | `SpcFinancialCriteria` has two untagged BOOLEANs with a default: when only the second is written it is read as the first | asn1/spc.py:319-325 |
| C42 | a trust list with an unsupported algorithm in an earlier store hides an accepting store | authroot.py:150-153, context.py:401-411 |
| C42, C78 | comparing a datetime without timezone with one of a trust list raises TypeError, and the other stores are not asked; as the moment of a validation it raises ValueError, which is no error of the verification | authroot.py:336, 367, context.py:341-356 |
| C43 | `is_trusted` before the first iteration sees an empty store | context.py:76, 145-167 |
| C49 | `FileTime.set` scales seconds by 100 instead of 10^7 | asn1/ctl.py:132 |
| C50 | formatting the error for a certificate with a non-string subject attribute raises TypeError | certificates.py:303, 228 |
| C53 | repeated attributes are accepted (last wins); several malformed structures raise KeyError, TypeError, AssertionError, NotImplementedError or OverflowError instead of ParseError | signerinfo.py:249, 222; signeddata.py:112; structures.py:364, 680 |
| C56 | `verify` lets KeyError, TypeError, IndexError, AssertionError, RecursionError, NotImplementedError, OverflowError and AttributeError escape for suitable files | several, see C53 |
| C57 | a signature stays valid when the certificate table is moved within the file, so it is accepted for two images that differ outside the omitted sections | signed_pe.py:74-97, fingerprinter.py:277-296 |
| C82 | a certificate with the signer's serial number and a malformed issuer ends the search for the signer with a ValueError | x509/context.py:118-130 |
| C84 | a certificate in a trusted store that is used in no chain, with a name that cannot be decoded, makes the verification of authentic signatures fail with a ValueError if it comes before the root that is used | x509/context.py:76, 401-411 |
| C85 | octets behind a value inside an explicit tag are overlooked by the decoder (of asn1crypto), so that octets which encode nothing are accepted | asn1/spc.py:100-117 |
| C62 | a trusted store that fails to load raises once; later verifications use the part that was loaded, so the same call gives another result | x509/context.py:156-167 |

## Testing the theorems

`seeded/LOG.jsonl` records, for each deliberately wrong edit of a definition of the model (in a
scratch copy), which theorems stopped compiling and which statements were tightened because
they survived.


## Per property

Status as in `MANIFEST.json`: *proved* = the statement of `properties.jsonl`; *partial* = the
statement is false of the code (then a `…_refuted` theorem gives the witness and the other
theorems say exactly what does hold) or needs the extra hypothesis named in the note.

### C01 — Fingerprinter.hashes is total and exact on valid ranges (proved)

* Modelled: `Fingerprinter` with file position, heap of range lists and fuel loop (`ModelFingerprint`)
* Proof: loop invariant “fed ++ remaining ranges = requested bytes”, measure on remaining bytes; refinement to the specification `spec_digest` over byte offsets
* Theorems: `C01_hashes_total_exact`
* Note: For every hash function, file, positive block size and sequence of calls with distinct lists of valid ranges.

### C02 — Fingerprinter never returns a wrong digest (proved)

* Modelled: `Fingerprinter` with file position, heap of range lists and fuel loop (`ModelFingerprint`)
* Proof: same invariant without validity of the ranges: every returned digest is the digest of the requested bytes
* Theorems: `C02_never_wrong`
* Note: Range lists must be distinct list objects; with one object shared between calls the property is false (C06_refuted_shared_list).

### C03 — Fingers do not influence each other and block size is unobservable (proved)

* Modelled: `Fingerprinter` with file position, heap of range lists and fuel loop (`ModelFingerprint`)
* Proof: corollary of C01/C02: results of one finger are a function of its own ranges
* Theorems: `C03_isolation`

### C04 — Fingerprinter reset and resumption (proved)

* Modelled: `Fingerprinter` with file position, heap of range lists and fuel loop (`ModelFingerprint`)
* Proof: invariant across `hashes()` calls including failed ones; the state after is the initial one
* Theorems: `C04_reset`, `C04_resume`, `C04_failures_are_short_reads`

### C05 — Fingerprinter.hash is only for a single registration (partial)

* Modelled: `Fingerprinter` with file position, heap of range lists and fuel loop (`ModelFingerprint`)
* Proof: case analysis on the result dict; witness by `vm_compute`
* Theorems: `C05_single`, `C05_other_raises`, `C05_exactly_once_refuted`
* Note: False of the code: two registrations under the same description are accepted by hash() (last wins). The rest is proved.

### C06 — Range lists passed to add_hashers are not changed (partial)

* Modelled: `Fingerprinter` with file position, heap of range lists and fuel loop (`ModelFingerprint`)
* Proof: exact final heap; witnesses by `vm_compute`
* Theorems: `C06_lists_are_consumed`, `C06_refuted`, `C06_refuted_reuse`, `C06_refuted_shared_list`
* Note: False of the code: hashes() empties the caller's lists; exact effect proved.

### C07 — Malformed requests fail by exception (partial)

* Modelled: `Fingerprinter` with file position, heap of range lists and fuel loop (`ModelFingerprint`)
* Proof: progress argument for well-formed block sizes; divergence shown for every fuel by induction; `ProofsFingerprint4`: a round that goes on either decreases the bytes and ranges left or leaves the loop at a standstill for ever, so the outcome is decided after an explicit number of rounds
* Theorems: `C07_outcome`, `C07_malformed_raises_partial`, `C07_negative_block_raises`, `C07_zero_block_diverges`, `C07_refuted_zero_block`, `C07_refuted_reversed`
* Note: False of the code: block_size 0 and a reversed range next to another finger can make it never end. C07_outcome covers every request: it has ended within an explicit number of rounds, returning only if all ranges are readable and raising only if not, or it never ends, which needs one of these two causes.

### C08 — PE header parsing is total and does not depend on the file position (proved)

* Modelled: `_parse_pe_header_locations` etc. in a file-state monad (`ModelPE`)
* Proof: the result is a function of the content, by symbolic execution of the monad
* Theorems: `C08_total_position_independent`

### C09 — Omitted sections follow the PE/COFF layout (proved)

* Modelled: `_parse_pe_header_locations` etc. in a file-state monad (`ModelPE`)
* Proof: refinement to a declarative layout (`SpecPE.layout`)
* Theorems: `C09_sections_follow_layout`

### C10 — Omitted sections are in bounds, disjoint and ordered (proved)

* Modelled: `_parse_pe_header_locations` etc. in a file-state monad (`ModelPE`)
* Proof: arithmetic over the layout
* Theorems: `C10_sections_wellformed`

### C11 — The authentihash covers every byte outside the omitted sections (proved)

* Modelled: `add_authenticode_hashers` on top of C01's and C08's models
* Proof: gap ranges are the complement of the omitted sections; composition with C01
* Theorems: `C11_authentihash`, `C11_unparsable`
* Note: With any other hashers registered before and after; a later registration must not reuse the description 'authentihash'.

### C12 — Authentihash sensitivity and insensitivity (proved)

* Modelled: `add_authenticode_hashers` on top of C01's and C08's models
* Proof: relational reasoning about two files over offsets
* Theorems: `C12_sensitive`, `C12_insensitive`
* Note: Sensitivity is stated on the byte sequence fed to the hash function.

### C13 — The authentihash binds bytes to file offsets (partial)

* Modelled: `add_authenticode_hashers` on top of C01's and C08's models
* Proof: witness by `vm_compute`; agreement per offset by the shift lemma
* Theorems: `C13_refuted`, `C13_same_shift_partial`
* Note: The property is false of the code: moving the certificate table shifts bytes (C13_refuted). Proved: agreement at every offset with the same number of omitted bytes before it.

### C14 — Certificate table walk is memory-safe and terminates (proved)

* Modelled: `_parse_cert_table` as a resumable generator over the file state
* Proof: invariant on the position; progress of at least 16 bytes per entry
* Theorems: `C14_walk_safe`, `C14_no_table`

### C15 — Certificate table round-trip (proved)

* Modelled: `_parse_cert_table` as a resumable generator over the file state
* Proof: round trip with an independent encoder
* Theorems: `C15_round_trip`
* Note: Also when the last entry is not padded.

### C16 — Iteration is insensitive to interleaved file access (proved)

* Modelled: `_parse_cert_table` and `iter_signed_datas` as resumable generators over the file state (`ModelPE.v`, `ModelIter.v`)
* Proof: simulation: steps depend on content, not position; the step by step iteration is related to the exhausted one of C17
* Theorems: `C16_interleaving`, `C16_hashes_keeps_content`, `C16_signatures`, `C16_verifying`
* Note: For the certificate table generator and for iter_signed_datas as a generator resumed step by step; fingerprinting and verifying keep the content of the file.

### C17 — iter_signed_datas enumerates all signatures once, parents first (proved)

* Modelled: `iter_signed_datas`: objects yielded and ending
* Proof: induction on table entries; preorder specification over paths
* Theorems: `C17_enumeration`, `C17_determined`, `C17_top_level`
* Note: Iteration over the generator of the certificate table run to its end; the caller does not move the file position in between (C16 covers that for the table). Stated over paths in the tree of entries and nested signatures.

### C18 — ignore_parse_errors only changes how the iteration ends (proved)

* Modelled: `iter_signed_datas`: objects yielded and ending
* Proof: case analysis on the ending
* Theorems: `C18_ignored_errors`
* Note: Both iterations run to their end.

### C19 — multi_verify_mode semantics (proved)

* Modelled: `SignedPEFile.verify`, `_calculate_expected_hashes`, `explain_verify` (`ModelAuthenticode`)
* Proof: induction on the list of signatures over abstract verdicts, then instantiation
* Theorems: `C19_modes`, `C19_modes_alone`
* Note: For files whose iteration ends without an error and yields something (otherwise C21), and supplied names known to hashlib (otherwise C22). For 'any'/'best' exceptions outside Exception are excluded. C19_modes: verdicts in sequence; C19_modes_alone: verdicts of each signature verified alone, for contexts that can be shared (e.g. the default ones).

### C20 — What SignedPEFile.verify returns and raises (proved)

* Modelled: `SignedPEFile.verify`, `_calculate_expected_hashes`, `explain_verify` (`ModelAuthenticode`)
* Proof: same
* Theorems: `C20_outcome`, `C20_outcome_alone`
* Note: Same hypotheses as C19.

### C21 — Unsigned files are never reported as verified (partial)

* Modelled: `SignedPEFile.verify`, `_calculate_expected_hashes`, `explain_verify` (`ModelAuthenticode`)
* Proof: case analysis on iteration; witness
* Theorems: `C21_nothing_found`, `C21_no_signature`, `C21_iteration_error`, `C21_refuted`
* Note: Never reported as verified. AuthenticodeNotSignedError (ignore_parse_errors=True) holds when the iteration ended with SignedPEParseError; if all entries fail with AuthenticodeParseError or other errors, that error is raised also with ignore_parse_errors=True (C21_refuted).

### C22 — Expected hashes: supplied ones are used, missing ones are computed (partial)

* Modelled: `SignedPEFile.verify`, `_calculate_expected_hashes`, `explain_verify` (`ModelAuthenticode`)
* Proof: dict reasoning on top of C11; witness
* Theorems: `C22_compared_partial`, `C22_unknown_name`, `C22_refuted`
* Note: Holds for dicts whose keys are all known to hashlib (with C20_outcome: the verdicts are those with these hashes). False in general: any other key makes verification raise AttributeError.

### C23 — The expected_hashes argument is not modified (partial)

* Modelled: `SignedPEFile.verify`, `_calculate_expected_hashes`, `explain_verify` (`ModelAuthenticode`)
* Proof: dict reasoning; witness with two files
* Theorems: `C23_refuted`, `C23_unchanged_partial`
* Note: False: computed hashes are added to the caller's dict, and reusing it makes the verification of another properly signed file fail. Proved instead: no entry is changed, only hashes of the file are added, none if all accepted algorithms are supplied.

### C24 — explain_verify classifies every outcome (proved)

* Modelled: `SignedPEFile.verify`, `_calculate_expected_hashes`, `explain_verify` (`ModelAuthenticode`)
* Proof: decision list over exception classes
* Theorems: `C24_explained`, `C24_explained_signature`, `C24_determined`
* Note: Exceptions outside Exception (KeyboardInterrupt) pass, as in the code.

### C25 — Integrity: a verified SignedData matches the file (proved)

* Modelled: `AuthenticodeSignedData.verify`, `RFC3161SignedData.verify`, `SignerInfo.verify` over the heap of stores and contexts
* Proof: inversion of a successful run
* Theorems: `C25_integrity`
* Note: Every hash function, file, signature, context; expected hash given or computed from the file.

### C26 — Authenticity: a verified SignedData is signed by a trusted chain (proved)

* Modelled: `AuthenticodeSignedData.verify`, `RFC3161SignedData.verify`, `SignerInfo.verify` over the heap of stores and contexts
* Proof: inversion of a successful run through candidates, signature check, context verification and trust
* Theorems: `C26_authenticity`
* Note: The chain building itself is the external validator, of which nothing is assumed.

### C27 — Digest checks come first and have their own error (proved)

* Modelled: `AuthenticodeSignedData.verify`, `RFC3161SignedData.verify`, `SignerInfo.verify` over the heap of stores and contexts
* Proof: forward execution of the digest checks
* Theorems: `C27_digest_errors`, `C27_computed`
* Note: Computed hashes need enough steps of the hashing loop, which exist for every file (C27_computed).

### C28 — Strict countersignature mode (proved)

* Modelled: `AuthenticodeSignedData.verify`, `RFC3161SignedData.verify`, `SignerInfo.verify` over the heap of stores and contexts
* Proof: inversion / forward execution of the try statement
* Theorems: `C28_strict`, `C28_strict_error`
* Note: Exceptions of the external functions that are not an Exception (such as KeyboardInterrupt) pass through.

### C29 — Permissive countersignature mode (partial)

* Modelled: `AuthenticodeSignedData.verify`, `RFC3161SignedData.verify`, `SignerInfo.verify` over the heap of stores and contexts
* Proof: witnesses; relational proof between run with and without countersignature
* Theorems: `C29_refuted`, `C29_unreadable_refuted`, `C29_permitted_as_strict`, `C29_permitted_partial`
* Note: False in two situations, both shown: one context object for both purposes, and stores that cannot be read. Proved for different contexts and readable stores.

### C30 — Ignored countersignatures have no influence (proved)

* Modelled: `AuthenticodeSignedData.verify`, `RFC3161SignedData.verify`, `SignerInfo.verify` over the heap of stores and contexts
* Proof: equality of runs
* Theorems: `C30_ignored`
* Note: The whole run is equal: result, contexts, stores and file.

### C31 — The time of validation (proved)

* Modelled: `AuthenticodeSignedData.verify`, `RFC3161SignedData.verify`, `SignerInfo.verify` over the heap of stores and contexts
* Proof: inversion: the moment passed to the validator
* Theorems: `C31_without_countersignature`, `C31_with_countersignature`
* Note: For different context objects; the same object for both is the counterexample C29_refuted.

### C32 — Lifetime signing (partial)

* Modelled: `AuthenticodeSignedData.verify`, `RFC3161SignedData.verify`, `SignerInfo.verify` over the heap of stores and contexts
* Proof: witness; inversion
* Theorems: `C32_refuted`, `C32_lifetime_partial`
* Note: False: an earlier candidate without the lifetime usage sets the time for later ones. Proved when all named certificates that verify the signature have the usage.

### C33 — Signatures are verified independently of each other (partial)

* Modelled: `AuthenticodeSignedData.verify`, `RFC3161SignedData.verify`, `SignerInfo.verify` over the heap of stores and contexts
* Proof: witness; frame reasoning on contexts and stores
* Theorems: `C33_refuted`, `C33_independent_partial`
* Note: False for a verification_context passed by the caller together with countersignatures. Proved for default contexts and for shared contexts without countersignatures to check.

### C34 — Embedded certificates are never trust anchors (proved)

* Modelled: `AuthenticodeSignedData.verify`, `RFC3161SignedData.verify`, `SignerInfo.verify` over the heap of stores and contexts
* Proof: inversion: roots passed to the validator come from trusted stores
* Theorems: `C34_trust_anchors`

### C35 — A returned chain starts at a trusted and CTL-approved root (partial)

* Modelled: `VerificationContext.verify`, `verify_trust`, trust lists
* Proof: inversion; witness
* Theorems: `C35_refuted`, `C35_returned_chain_partial`, `C35_remaining_usages`
* Note: False for extended_key_usages given as a one-shot iterator (C35_refuted: the validator exhausts it, the trust list then sees no usages). Proved for usages that can be read twice (C35_returned_chain_partial), and for all usages with the usages that are left (C35_remaining_usages).

### C36 — SignerInfo.verify collects all valid chains (partial)

* Modelled: `_build_chain` over the candidates
* Proof: induction on candidates with the `first_error` variable; witness
* Theorems: `C36_refuted`, `C36_chains_partial`
* Note: Refuted as stated: a candidate whose key cannot be loaded aborts the search although another candidate verifies. Proved for readable stores, repeatable usages and a signing time applying to all or none of the candidates: Ok = chains of exactly the verifying candidates in order, first error, or SignerInfoVerificationError; the first foreign exception propagates. C65_signer covers usages that can be read once and times that apply to some candidates only.

### C37 — Certificate equality is an equivalence compatible with hashing (proved)

* Modelled: `CertificateName`, `Certificate.__eq__/__hash__`
* Proof: boolean equality reflects an equivalence; hash is a function of the compared fields
* Theorems: `C37_equivalence_and_hash`, `C37_names`, `C37_names_hashable`, `C37_hashable`
* Note: Equality, symmetry, transitivity, hash compatibility for certificates and names; exactly which of them can be hashed.

### C38 — Distinguished names: equal names are the same name (partial)

* Modelled: `CertificateName`, `Certificate.__eq__/__hash__`
* Proof: witness; injectivity of components
* Theorems: `C38_refuted`, `C38_first_attributes_partial`, `C38_single_valued_partial`
* Note: False as stated: only the first attribute of a multi-valued RDN is compared (certificates.py:332). Proved for the first attributes and, in full, for single-valued names.

### C39 — CertificateName.dn is unambiguous (proved)

* Modelled: `CertificateName`, `Certificate.__eq__/__hash__`
* Proof: independent reader of the string, read-back lemma by induction
* Theorems: `C39_read_back`, `C39_unambiguous`, `C39_defined`
* Note: An independent reader recovers the components from dn.

### C40 — find_certificates filters and deduplicates (proved)

* Modelled: stores and `find_certificates` as loop over the generator
* Proof: induction over stores and items
* Theorems: `C40_find_certificates`, `C40_find_certificate`, `C40_unreadable`, `C40_store`
* Note: For all lists of stores that can be read; if one cannot be read its error is raised (C40_unreadable).

### C41 — potential_chains enumerates exactly the issuer/subject paths (proved)

* Modelled: `potential_chains`
* Proof: declarative path relation; soundness, completeness, no duplicates by induction on depth
* Theorems: `C41_potential_chains`, `C41_signer`
* Note: For all loaded stores; soundness, completeness and no repetitions. Python's recursion limit is not modelled (depth is at most the given one).

### C42 — verify_trust accepts iff some trusted store accepts (partial)

* Modelled: `verify_trust` of contexts and stores
* Proof: induction on stores; witness; an exact description of success for arbitrary stores
* Theorems: `C42_refuted`, `C42_naive_refuted`, `C42_verify_trust_partial`, `C42_exact`, `C42_sound`, `C42_order_partial`
* Note: False when a store in front has a trust list with an unsupported algorithm (C42_refuted), or with times that are compared with a naive datetime (C42_naive_refuted). Proved for supported lists, first certificates with a textual form, aware datetimes and usages that can be read twice; C42_exact says when True is returned for all lists, certificates and datetimes; soundness (C42_sound) likewise.

### C43 — FileSystemCertificateStore is transparent (partial)

* Modelled: `FileSystemCertificateStore` as state machine over operations
* Proof: invariant over histories; witness
* Theorems: `C43_refuted`, `C43_after_first_read_partial`, `C43_trusts_no_more`
* Note: False before the first reading operation: is_trusted does not load (C43_refuted). Proved from the first successful reading operation on, and is_trusted never says yes wrongly.

### C44 — FileSystemCertificateStore never trusts more than its location, even after failures (proved)

* Modelled: same, with failing loads at any point
* Proof: invariant over histories
* Theorems: `C44_contents`, `C44_stable`, `C44_others`
* Note: Every history of operations, every failure point of a load.

### C45 — Trust list entry decision (proved)

* Modelled: `CertificateTrustSubject._parse/verify_trust`
* Proof: decision table, case analysis
* Theorems: `C45_entry_decision`
* Note: All entries, non-empty chains, timestamps and usages; for naive datetimes also whether TypeError is raised.

### C46 — Trust list decisions are monotone (proved)

* Modelled: same
* Proof: corollary of the decision table
* Theorems: `C46_monotone`
* Note: Follows from C45 for all pairs of requests; a naive datetime is comparable only with itself.

### C47 — Trust list lookup is by fingerprint (proved)

* Modelled: `CertificateTrustList._parse/find_subject`
* Proof: hex injectivity, dict lemmas
* Theorems: `C47_lookup`, `C47_unlisted_rejected`
* Note: All lists, from the raw entries to the lookup.

### C48 — FILETIME decoding is monotone and accurate to a microsecond (proved)

* Modelled: `FileTime.native` with IEEE double rounding over Z
* Proof: error bound and monotonicity of correctly rounded division
* Theorems: `C48_accurate`, `C48_monotone`, `C48_failures`
* Note: Double rounding of value/10 modelled exactly over Z.

### C49 — FILETIME set/native round-trip (partial)

* Modelled: `FileTime.set`
* Proof: witness; exact characterisation
* Theorems: `C49_refuted`, `C49_partial`
* Note: False as stated: FileTime.set scales seconds by 100 instead of 10^7 (asn1/ctl.py:132).

### C50 — Signature check and legacy fallback (partial)

* Modelled: `Certificate.verify_signature`
* Proof: case analysis; witness
* Theorems: `C50_accepts_iff`, `C50_legacy_is_opt_in`, `C50_refuted`, `C50_rejection_class_partial`, `C50_respects_equality`
* Note: Acceptance part proved in full. The last clause (class of the rejection) is false for certificates whose subject has a non-string attribute: formatting the message raises TypeError; proved for formattable subjects.

### C51 — The signed attributes are bound by the signature input (proved)

* Modelled: `_encode_attributes` with DER lengths
* Proof: decoder for DER lengths; injectivity
* Theorems: `C51_signature_input`, `C51_bound`
* Note: DER SET OF encoding of the attribute contents is the input of the signature check; injective for contents of any length

### C52 — Accepted digest algorithms (proved)

* Modelled: `_get_digest_algorithm`, ranking
* Proof: case analysis
* Theorems: `C52_accepted_algorithms`, `C52_rejected_with_ParseError`, `C52_ranking`

### C53 — Structural checks of parsed signatures (partial)

* Modelled: parsing of SignerInfo, SignedData, TSTInfo, SpcInfo at any depth
* Proof: independent well-formedness predicate (`SpecPkcs7`), both directions by induction on depth; witnesses
* Theorems: `C53_accepted_partial`, `C53_unique_attributes_partial`, `C53_nested`, `C53_rejected_partial`, `C53_errors`, `C53_envelope`, `C53_refuted_attributes`, `C53_refuted_errors`
* Note: Accepted structures characterised exactly at any depth; false as stated: repeated attributes are accepted (last wins) and several defects raise KeyError, TypeError, AssertionError, NotImplementedError or OverflowError instead of ParseError

### C54 — Timestamp accuracy conversion (proved)

* Modelled: `accuracy_to_python`
* Proof: arithmetic with the range of timedelta
* Theorems: `C54_accuracy`
* Note: For non-negative fields; OverflowError beyond the largest timedelta.

### C55 — End-to-end soundness of SignedPEFile.verify (proved)

* Modelled: everything together
* Proof: composition of C11, C17, C20, C25, C26, C28, C34
* Theorems: `C55_sound`
* Note: For any multi_verify_mode and keyword arguments of the default contexts, not only the defaults; the trusted store reference must exist. In strict mode also the countersignature holds.

### C56 — Verification terminates, with a known set of exceptions (proved)

* Modelled: everything together, with explicit errors for running out of steps and for dangling references
* Proof: Hoare-style induction over all functions of the verification (`ProofsWhole`): reachable worlds have no dangling reference and every raised class is in the list; 20 concrete runs show that each class occurs
* Theorems: `C56_terminates_with_listed_errors`, `C56_each_class_occurs`, `C56_refuted`
* Note: C56_refuted is the last sentence of the statement: errors that are no SignifyErrors leave the verification.

### C57 — A signature vouches for one image (partial)

* Modelled: the whole verification (`pe_open_verify`: opening, enumeration, hashing, per-signature verification), run on two arbitrary files
* Proof: soundness of the verdicts (C25, C55) applied to both files gives equal hashes of the kept bytes; C12's sensitivity turns a changed byte into a collision; for tables at the end an analysis of the header layout (equal kept bytes force equal offsets); counterexample by evaluation for a moved table
* Theorems: `C57_same_hash_partial`, `C57_modification_partial`, `C57_table_at_end_partial`, `C57_refuted`
* Note: The general statement is false (C57_refuted: the same signature is accepted for a file whose certificate table was moved). Proved: equal hashes in general; any modification outside the omitted sections of a file of the same layout is rejected in every mode up to a hash collision; agreement outside the omitted sections if the tables end the files.

### C58 — What verification depends on (proved)

* Modelled: the same, as a relation between two runs
* Proof: a ‘does not look at the file’ predicate on state computations, shown for every part of the verification but the table walk and the fingerprinter; those two depend on the table's bytes and the kept bytes only
* Theorems: `C58_determined`, `C58_checksum`

### C59 — Exactly the proper signatures are accepted (proved)

* Modelled: `asd_verify` and `pe_open_verify` with everything below them; what is proper is defined in SpecComplete.v without reference to the model functions that verify
* Proof: equivalences from the bottom up: one store, the search of the stores, the validator call, one signer, the countersignature, the SignedData (via the pure form of C28), the file (via C20)
* Theorems: `C59_exact`, `C59_accepted`, `C59_all`, `C59_first`, `C59_any`, `C59_file`, `C64_exact`, `C64_file`
* Note: The C59 theorems are for signers naming one certificate and countersignatures that must hold; C64_exact and C64_file are the exact statements for any candidates, modes and one-shot usages. Stores that cannot be read are treated in C74.

### C60 — Trust lists mean what their entries say (proved)

* Modelled: `parse_subject`, `parse_ctl`, `subject_verify_trust`, `ctl_verify_trust` (ModelContext.v); `parse_trust_list`, `from_stl_file`, `list_from_envelope`, `subjects` (ModelCtl.v)
* Proof: one lemma on folding attributes into a field, instantiated for the ten fields; uniqueness of what attributes say; dictionaries without repeated keys
* Theorems: `C60_entry`, `C60_decision`, `C60_readable`, `C60_subjects`, `C60_trust`, `C60_file`, `C60_not_signed_data`
* Note: Usages given as one-shot iterators are excluded in C60_trust (see C35, C43).

### C61 — Verification changes only what it is given to change (proved)

* Modelled: `frame`, `consults`, `passed` and `stated_times` in SpecFrame.v relate the objects before and after; the model is that of C17-C34 unchanged.
* Proof: A Hoare logic over the state monad (`safe` in ProofsFrame.v) whose invariant is the frame itself plus: contexts made meanwhile refer only to stores that may be consulted; one rule per operation, up to both verify functions.
* Theorems: `C61_file`, `C61_signature`, `C61_unchanged`

### C62 — Verification is repeatable (partial)

* Modelled: `history` in SpecFrame.v: any sequence of pe_open_verify with any files and arguments.
* Proof: By C61 a history only loads stores, which does not change what they are seen to contain; the verdict on each signature in two such worlds is the same (`verdict_similar`); the result is a function of the verdicts (`outcome_fun`). The full statement is refuted for a trusted store that fails to load: `_loaded` is set before loading.
* Theorems: `C62_refuted`, `C62_repeatable`
* Note: Refuted for a trusted store that fails to load (_loaded is set before loading, so that the second verification sees the part loaded); proved for every store that can be read.

### C63 — The multi-verify modes are ordered by strength (proved)

* Modelled: `settles` and `any_mode` in SpecFrame.v.
* Proof: `settled`: one list of signatures and one hash per digest algorithm determine the results of all modes; then by the definition of the outcomes of C19/C20.
* Theorems: `C63_all`, `C63_first`, `C63_none`, `C63_settles`

### C64 — Acceptance is characterised exactly, for any candidates and modes (proved)

* Modelled: The whole verification as for C19 and C25; the specification (SpecExact.v) defines the search through the candidates, countersignatures and the choice of signatures inductively, without the model's functions.
* Proof: Every step is shown to return either what the specification describes or an ordinary error of the class that decides whether the search goes on; the result follows by induction on the candidates and by the outcome of the modes (C19, C20).
* Theorems: `C64_exact`, `C64_decided`, `C64_file`, `C64_computed`

### C65 — Signers and time-stamp tokens verified on their own (proved)

* Modelled: SignerInfo.verify and RFC3161SignedData.verify; the specification is the search of SpecExact.v
* Proof: Both are reduced to the search through the candidates (C64).
* Theorems: `C65_signer`, `C65_plain_signer`, `C65_token`, `C65_decided`, `C65_content`

### C66 — Components of a name are found by any of their type's names (partial)

* Modelled: get_components with an argument, the table of labels
* Proof: The values are characterised by an inductive relation over the name (SpecLookup.v) with a table of labels of its own.
* Theorems: `C66_components`, `C66_labels`, `C66_equal_names`, `C66_complete`, `C66_refuted`
* Note: The last clause is false: of an RDN with several attributes only the first is found (C66_refuted). The rest is proved for all names.

### C67 — Decoding on demand changes nothing but when it fails (proved)

* Modelled: The parsing of all structures over trees whose fields are results of reading (`ModelLazy.v`, `ModelLazyFile.v`), `Certificate._parse` included; names are decoded with the field that holds them
* Proof: An unreadable part that was not needed is replaced by a default (`conv`), by induction on the depth; conversely every tree is one that can be read (`emb_*`). The exceptions by a predicate over all parts of the tree (`reads_ci`)
* Theorems: `C67_complete`, `C67_embeds`, `C67_file`, `C67_errors`, `C67_usages`
* Note: Decoding on demand is modelled for everything that is read while parsing; the components of a distinguished name are decoded with the name.

### C68 — The ASN.1 declarations are unambiguous: what is written can be read (partial)

* Modelled: Every declaration of `spc.py` and `ctl.py` as data (`ModelSpc.v`); asn1crypto's decoding driven by declarations (`ModelDer.v`)
* Proof: The encoding is an inductive relation of its own (`SpecAsn.v`: tags, both forms of definite lengths, implicit and explicit tags, absent fields, choices), and so is the rule of X.680 on distinct tags; mutual induction over the encoding. Each declaration is checked against the rule; SpcFinancialCriteria fails it. The identifier octets and optional fields are compared with tables of octets (`SpecTags.v`), by a computation that is proved about all encodings.
* Theorems: `C68_general`, `C68_declared`, `C68_unambiguous`, `C68_field`, `C68_spc`, `C68_tst`, `C68_refuted`, `C68_sequences`, `C68_absent`, `C68_alternatives`, `C68_elements`, `C68_marks`, `C68_choice_marks`
* Note: All declarations but SpcFinancialCriteria, for which it is false (C68_refuted).

### C69 — Opening and verifying arbitrary octets (proved)

* Modelled: The decoding of octets by asn1crypto with the declarations of cms, x509, tsp and spc.py (`ModelDer.v`, `ModelSpc.v`, `ModelDecode.v`), composed with C67 and C56
* Proof: Every read of a decoded tree fails only with ValueError (induction on the size of the octets); C67 then gives the classes, and the completion of the lazy decoder instantiates C56. One envelope per class, built octet by octet in `ExampleDer.v`, shows that the list is tight.
* Theorems: `C69_errors`, `C69_each_class`, `C69_file`, `C69_nesting`
* Note: For the decoder of ModelDecode.v, which stands for asn1crypto.

### C70 — The signed octets determine what is vouched for (proved)

* Modelled: The same decoder; signatures of envelopes at any nesting depth (`opened` of `SpecDer.v`)
* Proof: What is read of an accepted structure is shown to be a function of the signed octets (`ProofsDecode3.v`: the attributes are those decoded from the octets, the two forms of the content are told apart by their first tags); with C25 this gives the statement on files.
* Theorems: `C70_attributes`, `C70_purposes`, `C70_content`, `C70_token`, `C70_stamp`, `C70_image`
* Note: Collisions are explicit in the conclusions; no assumption on the hash function.

### C71 — Errors of opening a trust list (proved)

* Modelled: `ModelStl.v`: `der_open_list` decodes the octets on demand with the decoder of C69, in the order of `from_stl_file`, `SignedData._parse`, `CertificateTrustList._parse` and `CertificateTrustSubject._parse`.
* Proof: `ProofsStl2.v`: every step raises one of the listed classes. `C71_reached` has octets for every class.
* Theorems: `C71_errors`, `C71_envelope`
* Note: All byte strings; each class is reached by an example.

### C72 — A trust list is read as it is written (proved)

* Modelled: As C71; `SpecStl.v` says what values of the declarations (C68) mean as entries and lists, and which files hold a list. Values are related to octets by the encoding rules of `SpecBer.v` (C85), not by the decoder, and the certificates of the file by `choice_says` (C77). Integers, object identifiers, names, texts and times are stated by `SpecPrim.v` and `SpecTime.v`; `ProofsPrim4.v` relates them to the readers of the decoder.
* Proof: `ProofsStl.v`: a file that holds a list is opened as the list (`file_means`); composed with C60 in `ProofsStl3.v`. `C72_held` and `C72_run` show a list in both encodings.
* Theorems: `C72_readable`, `C72_read`, `C72_trust`
* Note: From octets to trust decisions, for both encodings of the content.

### C73 — Primitive values mean what the standards say (proved)

* Modelled: ModelDecode.v (int_native, dotted, oid_native, days_from_civil, time_native, text) with the tables of ModelSpc.v; specified in SpecPrim.v and SpecTime.v by the rules of X.690, RFC 3629 and RFC 2781, the grammar of times that asn1crypto takes, and a calendar that counts day by day.
* Proof: Induction over octets (ProofsPrim.v: numbers and identifiers; ProofsPrim3.v: text, both directions) and over days (ProofsPrim2.v); ProofsTime.v inverts the reading of a time part by part, so that the two exact theorems cover every text, fractions and missing parts included. T61 strings are read as Latin-1 in the model; a time rounded past the year 9999 is a ValueError in the model (an OverflowError in the code).
* Theorems: `C73_integer`, `C73_oid`, `C73_oid_injective`, `C73_names`, `C73_days`, `C73_utc_time`, `C73_general_time`, `C73_local_time`, `C73_general_exact`, `C73_utc_exact`, `C73_utf8`, `C73_bmp`, `C73_universal`, `C73_ia5`
* Note: Numbers, identifiers and their names, times and texts, each against the encoding rules of its standard.

### C74 — Nothing is verified with a store that cannot be read (partial)

* Modelled: Loading of stores with the _loaded flag set before reading (ModelContext.v: store_load, find_stores, context_verify) in all verifications of ModelAuthenticode.v; SpecUnread.v says when a store cannot be read.
* Proof: An invariant (ProofsUnread.v: the store stays unreadable, or an exception passes every handler for verification errors) through all operations; exactness then follows from C64. False as stated: after the failure the store counts as loaded, so with mode any a second signature is verified with the part that was read (C74_refuted), and with mode permit the signature after its countersignature (C29_unreadable_refuted).
* Theorems: `C74_signer`, `C74_token`, `C74_exact_partial`, `C74_signature_partial`, `C74_countersignature`, `C74_file_partial`, `C74_refuted`
* Note: False as stated: the failing attempt marks the store as loaded, and later attempts of the same call use the part that was read (mode any: C74_refuted; mode permit: C29_unreadable_refuted). Proved for signers, tokens, signatures without permitted countersignatures, and files in the modes all and first.

### C75 — Certificates in PEM files are all read, and nothing else is (partial)

* Modelled: asn1crypto.pem.unarmor and binascii.a2b_base64 character by character, from_pems as what the generator yields and the exception that ends it, from_pem with the StopIteration of next as None (ModelPem.v). Certificates are decoded by the concrete decoder of C69/C70. The specification (SpecPem.v) is RFC 4648 and RFC 7468: base64, text_of (lines with any ends), bundle, and for the converse block_of and carries (the bits of the letters).
* Proof: Round trip of base 64 by induction on groups of three octets; lines by induction on the text; the state machine of unarmor by induction on the lines with an invariant on what was seen. Rejection of unclosed blocks is refuted: the last block is dropped silently, another one swallows its successor.
* Theorems: `C75_read`, `C75_base64`, `C75_none`, `C75_single`, `C75_sound`, `C75_store`, `C75_stray`, `C75_errors`, `C75_plain`, `C75_refuted`
* Note: Everything but the last sentence, which is false (C75_refuted): an unclosed block at the end is dropped without an error, and an unclosed block in the middle swallows the block that follows.

### C76 — Certificates are read as they are written (proved)

* Modelled: cert_from_der over the octet decoder (ModelDecode), which reads the certificate field by field as Certificate.__init__ does; key parameters that are a structure are represented by their encoding. Of the extensions, the extended key usage and the two that spc.py declares (agency information, financial criteria) are decoded; the values of the other types that asn1crypto knows are taken to be readable. What a certificate means is stated in SpecRead.v on values of independent declarations of X.509, which the encoding rules of SpecBer.v (C85) relate to octets without the decoder (fields the model does not read may be anything). Integers, object identifiers, names, texts and times are stated by `SpecPrim.v` and `SpecTime.v`; `ProofsPrim4.v` relates them to the readers of the decoder.
* Proof: An equivalence: for octets in which a value is written, from_der yields c iff the value means c. Decoding is shown independent of the declarations of fields that are not read (alike), then each field is read separately. C76_encoded combines it with the inverse of encoding (C68). C76_names by cases on the tables of names: no other identifier has the name, since an unknown one is named by its dotted form.
* Theorems: `C76_read`, `C76_encoded`, `C76_names`
* Note: Version, signature algorithm and signature value of the certificate are not part of the model's certificates; they are required to be readable.

### C77 — Signatures are read as they are written (proved)

* Modelled: SpecEnvelope.v declares the types of CMS, Authenticode and the Time-Stamp Protocol on its own and relates values, found in the octets by the encoding rules of SpecBer.v (C85) and not by the decoder, to what ModelPkcs7.v takes for decoded (raw_ci): says. Parts whose type depends on an object identifier are related where they are used, by mutual induction over attributes, signers, content infos and signed data. Integers, object identifiers, names, texts and times are stated by `SpecPrim.v` and `SpecTime.v`; `ProofsPrim4.v` relates them to the readers of the decoder.
* Proof: ProofsEnvelope.v proves that the lazy parser only depends on the values that are read; ProofsEnvelope2.v proves by induction on the size that the lazy reader gives a value that agrees with what the octets say, at any depth. C77_says shows a signature with countersignature, nested signature with timestamp token, opus information and certificates that meets the hypothesis. The names of attributes of unknown types and of foreign certificate forms are left open because nothing depends on them. C77_parts: the decoder reads a value of one of the types exactly where it is written.
* Theorems: `C77_read`, `C77_encoded`, `C77_parts`
* Note: octets that say r are parsed as r, at any depth; encoded parts are read back

### C78 — Times without a timezone verify nothing (partial)

* Modelled: Datetimes are aware or naive throughout (`ModelX509.v`, `ModelContext.v`, `ModelPkcs7.v`, `ModelAuthenticode.v`); reading a GeneralizedTime without zone gives a naive one (`ModelDecode.v`). That a ValidationContext refuses a naive moment is a hypothesis on the external function (`needs_zone`, `SpecNaive.v`).
* Proof: `ProofsNaive.v`: an accepted chain implies that the validator was set up at its time; C31 and C29 give the rest.
* Theorems: `C78_refuted`, `C78_context`, `C78_chains`, `C78_countersignature`, `C78_permitted`
* Note: Nothing is accepted at a naive datetime and a countersignature with one counts for nothing (proved). The last sentence is false: a caller's naive timestamp makes verify raise ValueError (C78_refuted; the documentation asks for an aware one, but it is not checked).

### C79 — The verdict on a file follows from its octets (proved)

* Modelled: The functions of ModelPE, ModelLazyFile, ModelDecode and ModelAuthenticode together; the hypotheses (SpecOctets: signed_file) are stated on the octets of the file with the specifications of C09, C15, C53 and C77.
* Proof: ProofsOctets composes C09, C15 (table), C77 and C53 (envelopes), C67 (decoding on demand), C17 (iteration), C64 (exact acceptance) and C69 (termination). The example is a complete file: two signatures, one countersigned, one nested.
* Theorems: `C79_read`, `C79_verdict`, `C79_decided`
* Note: Contexts passed by the caller must be shareable between signatures and stores readable, as in C64_file.

### C80 — The command line prints the digests of the files (proved)

* Modelled: ModelMain.v: main as a function from the names and the file system to the lines printed and the exception that ended it, over the Fingerprinter of ModelFingerprint.v and ModelPE.v; sorted() on items and the format {k:<10} are modelled.
* Proof: ProofsMain.v: sorting a dict is determined by its lookups; C01 and C11 give the lookups.
* Theorems: `C80_main`, `C80_determined`

### C81 — The listing of a trust store is complete and ordered, and certificates are named unambiguously (proved)

* Modelled: the script of `structures.py` and `Certificate.__str__` (`ModelListing`); `str` of a datetime is a parameter
* Proof: sorting by insertion is a stable permutation; mixed kinds are met by an adjacent pair; decimals without leading zeros read back; the text is split at its last two colons
* Theorems: `C81_listing`, `C81_order`, `C81_unreadable`, `C81_text`, `C81_text_defined`

### C82 — A malformed name is harmless unless it is compared or printed, and then it is reported (partial)

* Modelled: ModelName.v: CertificateName with components decoded on demand (get_components as a generator, rdns, dn, equality, hash), equality and membership of certificates, find_certificates of a store, and the names of octets.
* Proof: The RDNs are split at the first that fails, in the order in which the code reads them (ProofsName.v); every name stands for a decoded one or is broken, and each operation is characterised in both cases, so that the theorems are equivalences. C82_octets links the decoder of ModelDecode.v, which takes all of a name at once, to decoding on demand. The refuted wish is C82_refuted.
* Theorems: `C82_either`, `C82_decoded`, `C82_broken`, `C82_equal`, `C82_certificates`, `C82_member`, `C82_text`, `C82_signer`, `C82_search`, `C82_octets`, `C82_octets_decoded`, `C82_refuted`
* Note: All parts are proved; that a search always finds the certificate it is for is false of the code (C82_refuted), as a certificate with the same serial number and an undecodable issuer ends it.

### C83 — What is shown of a signature is what was signed (proved)

* Modelled: `ModelShown.v`: what `AuthenticodeSignerInfo` and `SpcInfo` store for display, read from the octets of the envelope with the declarations of spc.py, nested signatures in the order of `iter_recursive_nested`. Integers, object identifiers, names, texts and times are stated by `SpecPrim.v` and `SpecTime.v`; `ProofsPrim4.v` relates them to the readers of the decoder.
* Proof: `SpecShown.v` says what octets tell by the encoding relation of C77, and which octets are signed and hashed. C83_written, C83_counted and C83_image read one signer or content; C83_envelope ties what is shown of every parsed envelope to the octets that are signed; C83_signed compares two.
* Theorems: `C83_written`, `C83_counted`, `C83_image`, `C83_envelope`, `C83_signed`
* Note: A moniker is shown as an object, not as text.

### C84 — Verification with names that cannot be decoded (proved)

* Modelled: verification of certificates, signers, countersigners, signatures and files with names decoded as they are compared or shown (`ModelDemand.v`), over `ModelName.v`
* Proof: both verifications are compared step by step (`ProofsDemand*.v`): they do the same until a name is met that cannot be decoded, and then the exception is none that a handler below the countersignature catches; acceptance by C64. That an undecodable name anywhere outside the chain is harmless is false of trusted stores (`C84_trust_refuted`)
* Theorems: `C84_decoded_signature`, `C84_decoded_file`, `C84_signer`, `C84_signature`, `C84_accepted_signature`, `C84_accepted_file`, `C84_harmless_signature`, `C84_harmless_file`, `C84_trust_refuted`
* Note: For all names, certificates, stores, signatures and files. C84_accepted_file is for the default contexts. C84_trust_refuted shows that the condition on trusted stores in the harmless theorems is needed.

### C85 — Structures are read exactly from their encodings (proved)

* Modelled: The decoder of ModelDer.v (asn1crypto's _parse and _build) and the declarations of ModelSpc.v. SpecBer.v states the basic encoding rules as relations between values and octets, without reference to the decoder: identifier octets with tags of any size, definite and indefinite lengths, and for each kind of declared type when a value is written in another.
* Proof: C85_value and C85_values are equivalences, by induction on the nesting of indefinite lengths; C85_load is an equivalence for every declared structure, by induction on the type in one direction and on the encoding in the other; C85_any_type is the same for every type whose fields and alternatives can be told apart. C85_definite relates it to C68. C85_refuted: octets behind a value inside an explicit tag are overlooked by the library. Strings in the constructed form are not modelled (they are rejected).
* Theorems: `C85_value`, `C85_values`, `C85_prefix`, `C85_load`, `C85_any_type`, `C85_error`, `C85_definite`, `C85_refuted`
* Note: Exact characterisation of what the decoder reads; C85_refuted shows the one liberty it takes.

### C86 — Exactly the encodings of well-formed signatures are accepted (proved)

* Modelled: The eager object made by `lz_from_envelope der_loader` (ModelLazy.v and ModelDecode.v) from arbitrary octets.
* Proof: SpecAccepted.v says in terms of X.690 encodings (SpecBer.v) and of what values mean (SpecRead.v, SpecEnvelope.v, SpecShown.v) which octets are a signature and which object they are; every reading function is inverted, by induction on the depth of nested signatures and on the number of countersignatures; the converse is by induction on the description, with a depth that suffices.
* Theorems: `C86_accepted`, `C86_found`, `C86_exact`, `C86_certificate`
* Note: Both directions for all octets: what is accepted is an encoding of a well-formed signature that says what the object says, and every such encoding is accepted once the recursion depth is large enough.

### C87 — Exactly which files are verified, from their octets on (proved)

* Modelled: The whole verification of a file from its octets (`lz_verify_result der_loader`, `octets_iterate`), as in C79.
* Proof: SpecSigned.v puts the layout and table of SpecPE.v and the encoded signatures of SpecAccepted.v together; the walk over the table is compared with the consecutive entries (C14), entries with C86 in both directions, and the verdict with C64. Examples: the file of C79, and one with an entry of another revision.
* Theorems: `C87_read`, `C87_unique`, `C87_exact`
* Note: Both directions, with parse errors ignored or not; shared contexts and unambiguous stores are assumed as in C64.

### C88 — What is verified has its evidence in the octets of the file and of the trusted directory (proved)

* Modelled: The whole verification of a file from its octets (`lz_verify_result der_loader`, ModelLazyFile.v and ModelDecode.v) with a store that reads a directory (`location_of`, ModelPem.v). SpecEvidence.v combines the layout of the table, the encodings of signatures and certificates and the text of PEM files; the decoder does not occur in it.
* Proof: C55 for the decoder that decodes completely (C67), the encodings of what is accepted (C86), the walk along the table (C87) and the blocks of what is read from text (C75). No hypotheses on the libraries or on the contents of the directory.
* Theorems: `C88_evidence`, `C88_none`
* Note: Default contexts and no supplied hashes, as in C55.

### C89 — Exactly the encodings of well-formed trust lists are opened (proved)

* Modelled: Nothing new: the reader of ModelStl.v (der_from_stl_file), the verification of C87/C88. SpecTrustList.v states the octets: the envelope and certificates of SpecAccepted.v, the entries and attributes of SpecStl.v, the parts of the list in order with the tags by which optional ones are told apart, and that the signers, where certificates and revocation lists are left out, do not begin with their tags.
* Proof: From an opened list, the steps of the reader are inverted one by one (ProofsTrustList.v, read_back); conversely the parts are shown to be matched to the fields as they stand (list_fields, data_decoded; the declared type is ambiguous here because the signers are not looked at, so the general lemma of C85 does not apply) and the reader is run on them (list_opened). C89_evidence combines this with C88 and the decision of C60.
* Theorems: `C89_opened`, `C89_read`, `C89_one`, `C89_trust`, `C89_evidence`, `C89_none`
* Note: Both directions, from the octets on. Libraries as in C87.

### C90 — What a verification without arguments guarantees (proved)

* Modelled: `ModelDefault.v`: the default store of `structures.py` from the octets of the list and of the files of the directory, the default arguments of `VerificationContext`, `AuthenticodeSignedData.verify` and `SignedPEFile.verify`, and the call without arguments, on the model of C86 to C89.
* Proof: `SpecDefault.v` spells out the evidence for the signer and for the countersigner with the defaults as literals; `ProofsDefault.v` derives it from C88, C89 and the soundness of strict countersignatures (C28, C55), and the exact characterisation from C87.
* Theorems: `C90_import`, `C90_sound`, `C90_nothing`, `C90_exact`
* Note: mscerts is represented by the octets of its files; the options are passed to the validator, which is a parameter.
