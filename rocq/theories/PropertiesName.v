(** Property C82: names that cannot be decoded. *)
From Verif Require Import Base Bytes ModelX509 ModelContext ModelDer ModelSpc ModelDecode ModelName SpecName ProofsName ExampleData PropertiesFingerprint.

(** *** Every name either stands for a decoded name or is broken *)
Theorem C82_either : forall n,
  (forall x, lz_rdns n = Ok x <-> exists m, stands_for n m /\ x = rdns m) /\ (forall e, lz_rdns n = Err e <-> broken n e).
Proof. exact rdns_exact. Qed.
Print Assumptions C82_either.

(** What can be decoded behaves as the decoded name, whatever the attributes after the first are. *)
Theorem C82_decoded : forall n m oid_native t pyhash, stands_for n m ->
  lz_components n = (get_components m, None) /\
  lz_components_of oid_native t n = (get_components_of oid_native t m, None) /\
  lz_dn n = dn m /\ lz_name_hash pyhash n = name_hash pyhash m.
Proof.
  intros n m f t h S. split; [now apply components_sound|]. split; [now apply components_of_sound|]. split; [now apply dn_sound|].
  unfold lz_name_hash. now rewrite (rdns_sound n m S).
Qed.
Print Assumptions C82_decoded.
(** What cannot yields the components after the broken one, and then raises. *)
Theorem C82_broken : forall n e after oid_native t, broken_before n e after ->
  lz_components n = (map (fun x => (rdn_type (a_oid x), a_val x)) (rev after), Some e) /\
  lz_components_of oid_native t n =
    (map a_val (filter (fun x => str_mem t [a_oid x; oid_native (a_oid x); rdn_type (a_oid x)]) (rev after)), Some e).
Proof. intros n e after f t B. split; [now apply components_broken|now apply components_of_broken]. Qed.
Print Assumptions C82_broken.

(** *** Comparing *)
Theorem C82_equal : forall a b,
  (lz_name_eq a b = Ok true <-> same_name a b) /\ (lz_name_eq a b = Ok false <-> different_names a b) /\
  (forall e, lz_name_eq a b = Err e <-> name_error a b e).
Proof.
  intros a b. split; [|split; [|apply names_error]]; rewrite names_equal; split.
  - intros [[_ S]|[X _]]; [exact S|discriminate X].
  - intros S. left. now split.
  - intros [[X _]|[_ D]]; [discriminate X|exact D].
  - intros D. right. now split.
Qed.
Print Assumptions C82_equal.
Theorem C82_certificates : forall a b,
  (lz_cert_eq a b = Ok true <-> same_certificate a b) /\ (forall e, lz_cert_eq a b = Err e <-> comparison_error a b e).
Proof. exact certs_equal. Qed.
Print Assumptions C82_certificates.
Theorem C82_member : forall c l,
  lz_cert_in c l = Ok true <->
  exists front x back, l = front ++ x :: back /\ (lo_id x = lo_id c \/ same_certificate x c) /\
    Forall (fun y => lo_id y <> lo_id c /\ ~ same_certificate y c /\ forall e, ~ comparison_error y c e) front.
Proof. exact cert_in_true. Qed.
Print Assumptions C82_member.

(** *** Printing *)
Theorem C82_text : forall n,
  (forall e, lz_dn n = Err e -> unprintable n e) /\
  (forall e, unprintable n e -> exists e', lz_dn n = Err e' /\ e_class e' = e_class e).
Proof. intros n. split; [apply dn_error|apply dn_unprintable]. Qed.
Print Assumptions C82_text.

(** *** The search for a signer: only a certificate with the serial number can disturb it *)
Theorem C82_signer : forall n z l, sound n ->
  (snd (lz_find (by_issuer n z) l) = None <-> forall c, In c l -> lo_serial c = z -> sound (lo_issuer c)) /\
  (forall e, snd (lz_find (by_issuer n z) l) = Some e -> exists c, In c l /\ lo_serial c = z /\ broken (lo_issuer c) e) /\
  (forall c, In c (fst (lz_find (by_issuer n z) l)) -> In c l /\ lo_serial c = z /\ same_name (lo_issuer c) n) /\
  (snd (lz_find (by_issuer n z) l) = None ->
   forall c, In c l -> lo_serial c = z -> same_name (lo_issuer c) n -> In c (fst (lz_find (by_issuer n z) l))).
Proof. exact signer_search. Qed.
Print Assumptions C82_signer.
(** Any search: it goes through the certificates until a comparison raises. *)
Theorem C82_search : forall q l ys r,
  lz_find q l = (ys, r) <->
  exists good rest, l = good ++ rest /\
    (forall c, In c good -> exists x, lz_matches q c = Ok x) /\
    ys = filter (fun c => match lz_matches q c with Ok x => x | Err _ => false end) good /\
    ((rest = [] /\ r = None) \/ exists c rest' e, rest = c :: rest' /\ lz_matches q c = Err e /\ r = Some e).
Proof. exact find_exact. Qed.
Print Assumptions C82_search.

(** *** Octets *)
Theorem C82_octets : forall a tg t m, read_name a tg t = Ok m <-> wholly (lz_read_name a tg t) m.
Proof. exact name_read. Qed.
Print Assumptions C82_octets.
Theorem C82_octets_decoded : forall a tg t m, read_name a tg t = Ok m -> stands_for (lz_read_name a tg t) m.
Proof. intros a tg t m H. apply wholly_stands. now apply name_read. Qed.
Print Assumptions C82_octets_decoded.

(** *** Examples *)
Definition ex_cn (s : string) : lz_ava := mkLzAva (Ok "2.5.4.3") (Ok (VStr (ustr_of s))).
Definition ex_bad : lz_ava := mkLzAva (Ok "2.5.4.10") (Err (mkExn ValueError "Insufficient data")).
Definition ex_n : lz_name := Ok [Ok [ex_cn "CA"]].
Definition ex_n_second : lz_name := Ok [Ok [ex_cn "CA"; ex_bad]].
Definition ex_n_bad : lz_name := Ok [Ok [ex_cn "X"]; Ok [ex_bad]; Ok [ex_cn "CA"]].
Definition ex_obj (i : Z) (issuer : lz_name) (serial : Z) : lz_certobj := mkLzObj i issuer serial ex_n "rsa" PNone [x01] "".

(** An attribute after the first is never looked at; before the broken RDN its successors come out. *)
Example C82_names_run :
  stands_for ex_n_second [mkRdn (mkAva "2.5.4.3" (VStr (ustr_of "CA"))) []] /\ lz_name_eq ex_n ex_n_second = Ok true /\
  broken_before ex_n_bad (mkExn ValueError "Insufficient data") [mkAva "2.5.4.3" (VStr (ustr_of "CA"))] /\
  lz_components ex_n_bad = ([("CN", VStr (ustr_of "CA"))], Some (mkExn ValueError "Insufficient data")) /\
  lz_components_of (fun o => o) "C" ex_n_bad = ([], Some (mkExn ValueError "Insufficient data")) /\
  lz_name_eq ex_n (Ok [Ok []]) = Err (mkExn IndexError "list index out of range") /\
  unprintable ex_n_bad (mkExn ValueError "Insufficient data").
Proof.
  split; [eexists; split; [reflexivity|]; repeat constructor|]. split; [reflexivity|].
  split; [right; exists [Ok [ex_cn "X"]], (Ok [ex_bad]), [Ok [ex_cn "CA"]]; split; [reflexivity|]; split; [constructor|repeat constructor]|].
  split; [reflexivity|]. split; [reflexivity|]. split; [reflexivity|].
  apply dn_error. reflexivity.
Qed.
(** A certificate with another serial number does not disturb. *)
Example C82_signer_run :
  sound ex_n /\
  lz_find (by_issuer ex_n 7) [ex_obj 1 ex_n_bad 6; ex_obj 2 ex_n 7; ex_obj 3 ex_n_second 7] =
    ([ex_obj 2 ex_n 7; ex_obj 3 ex_n_second 7], None) /\
  lz_cert_in (ex_obj 1 ex_n_bad 6) [ex_obj 1 ex_n_bad 6] = Ok true /\
  lz_cert_in (ex_obj 1 ex_n_bad 6) [ex_obj 2 ex_n_bad 6] = Err (mkExn ValueError "Insufficient data").
Proof.
  split; [exists [mkRdn (mkAva "2.5.4.3" (VStr (ustr_of "CA"))) []]; eexists; split; [reflexivity|]; repeat constructor|].
  repeat split; reflexivity.
Qed.

(** One with the same serial number does: the search need not find what it is for. *)
Theorem C82_refuted : exists n z l c,
  In c l /\ lz_matches (by_issuer n z) c = Ok true /\ sound n /\
  ~ In c (fst (lz_find (by_issuer n z) l)) /\
  exists e, snd (lz_find (by_issuer n z) l) = Some e /\ issubclass (e_class e) SignifyError = false.
Proof.
  exists ex_n, 7, [ex_obj 1 ex_n_bad 7; ex_obj 2 ex_n 7], (ex_obj 2 ex_n 7).
  split; [right; now left|]. split; [reflexivity|].
  split; [exists [mkRdn (mkAva "2.5.4.3" (VStr (ustr_of "CA"))) []]; eexists; split; [reflexivity|]; repeat constructor|].
  split; [intros []|]. eexists. split; reflexivity.
Qed.
Print Assumptions C82_refuted.

(** In octets: a name whose second attribute, or whose value, is not what it should be.  The decoder
    that takes everything at once rejects both; on demand only the second is noticed. *)
Definition ex_set (kids : bytes) : bytes := [x31; byte_of_Z (zlen kids)] ++ kids.
Definition ex_seq (kids : bytes) : bytes := [x30; byte_of_Z (zlen kids)] ++ kids.
Definition ex_attr (tag : byte) (s : string) : bytes := ex_seq ([x06; x03; x55; x04; x03] ++ [tag; byte_of_Z (zlen (str s))] ++ str s).
Definition ex_name_octets (kids : bytes) : tlv := mkTlv 0 true 16 [x30; byte_of_Z (zlen (ex_set kids))] (ex_set kids) [].
Example C82_octets_run :
  let good := ex_name_octets (ex_attr x13 "CA") in
  let second := ex_name_octets (ex_attr x13 "CA" ++ ex_attr x02 "1") in
  let first := ex_name_octets (ex_attr x02 "1") in
  let R := ModelSpc.Name in
  read_name R Untagged good = Ok [mkRdn (mkAva "2.5.4.3" (VStr (ustr_of "CA"))) []] /\
  (exists e, read_name R Untagged second = Err e) /\
  lz_rdns (lz_read_name R Untagged second) = Ok [("CN", VStr (ustr_of "CA"))] /\
  (exists e, lz_rdns (lz_read_name R Untagged first) = Err e).
Proof. vm_compute. repeat split; try reflexivity; eexists; reflexivity. Qed.
