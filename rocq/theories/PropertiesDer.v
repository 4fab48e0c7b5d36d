(** Properties C69 and C70: the decoder of ModelDecode.v. *)
From Verif Require Import Base Monad ModelFile ModelFingerprint SpecFingerprint ModelPE SpecPE ModelX509 ModelContext ModelPkcs7
  ModelLazy ModelAuthenticode ModelLazyFile ModelDer ModelSpc ModelDecode
  SpecAuthenticode SpecSignedPE SpecWhole SpecLazy SpecDer
  ProofsDecode2 ProofsDecode3 ProofsDecode4 ExampleDer.
From Verif Require Import PropertiesFingerprint PropertiesX509 PropertiesContext PropertiesPE PropertiesPkcs7 PropertiesAuthenticode
  PropertiesSignedPE.

(** *** C69: decoding any octets *)

(** Whatever the octets: parsing an envelope gives a signature or an exception of one of ten
    classes; decoding itself adds only ValueError to those of C56. *)
Theorem C69_errors :
  forall depth pe b e,
  lz_from_envelope der_loader depth pe b = Err e -> In (e_class e) (ValueError :: parse_errors).
Proof. exact der_errors. Qed.
Print Assumptions C69_errors.

(** None of the ten can be left out: each is raised for the octets of some envelope. *)
Theorem C69_each_class :
  forall k, In k (ValueError :: parse_errors) ->
  exists depth b e, (0 < depth)%nat /\ lz_from_envelope der_loader depth true b = Err e /\ e_class e = k.
Proof.
  assert (F : map (fun x => match lz_from_envelope der_loader 9 true (snd x) with Ok _ => None | Err e => Some (e_class e) end) e_rejected
              = map (fun x => Some (fst x)) e_rejected) by (vm_compute; reflexivity).
  assert (K : map fst e_rejected = ValueError :: parse_errors) by reflexivity.
  intros k Hk. rewrite <- K in Hk. apply in_map_iff in Hk. destruct Hk as ([k' b] & Ek & Hin). cbn [fst] in Ek. subst k'.
  assert (G : forall l : list (exc_class * bytes),
            map (fun x => match lz_from_envelope der_loader 9 true (snd x) with Ok _ => None | Err e => Some (e_class e) end) l
            = map (fun x => Some (fst x)) l ->
            forall x, In x l -> match lz_from_envelope der_loader 9 true (snd x) with Ok _ => None | Err e => Some (e_class e) end = Some (fst x)).
  { induction l as [|y l IH]; intros Q x []; cbn [map] in Q; injection Q as Q1 Q2; [subst y; exact Q1|apply IH; assumption]. }
  specialize (G _ F _ Hin). cbn [fst snd] in G.
  destruct (lz_from_envelope der_loader 9 true b) as [a|e] eqn:L; [discriminate G|]. injection G as G.
  exists 9%nat, b, e. split; [lia|]. split; [exact L|exact G].
Qed.
Print Assumptions C69_each_class.

(** SignedPEFile(f).verify(...) on any octets: it terminates and raises one of the listed
    classes, the AttributeError of an unknown hash name (C22), or what a cryptographic library
    or a store raised. *)
Theorem C69_file :
  forall E depth mode expected ign v w,
  well_formed w v ->
  exists N x,
    (forall fuel, (N <= fuel)%nat -> lz_pe_open_verify der_loader E depth fuel mode expected ign v w = x) /\
    forall e, snd x = Err e ->
      In (e_class e) (ValueError :: SignedPEParseError :: AuthenticodeNotSignedError :: parse_errors ++ verify_errors) \/
      (e_class e = AttributeError /\ ~ known_names E expected) \/ foreign silent E (w_stores w) e.
Proof. exact der_file. Qed.
Print Assumptions C69_file.

(** What is nested in an envelope is decoded to whatever depth: the bound that the model
    passes down is never reached. *)
Theorem C69_nesting :
  forall n b, (length b <= n)%nat -> der_loader_with n b = der_loader b.
Proof. exact der_nesting. Qed.
Print Assumptions C69_nesting.

(** Envelopes as they should be, and one with thirty levels of countersignatures; a bound
    that is too small would show. *)
Definition ex_opens (depth : nat) (b : bytes) : bool := is_ok (lz_from_envelope der_loader depth true b).
Example C69_run :
  ex_opens 9 (e_plain []) = true /\
  ex_opens 9 (e_envelope x03 (str "digest") [e_attr a_token [e_token (str "h") []]]) = true /\
  ex_opens 9 (e_plain [e_attr a_nested [e_plain [e_attr a_counter [e_counter (str "h") []]]]]) = true /\
  ex_opens 40 (e_plain [e_attr a_counter [e_deep 30]]) = true /\
  is_ok (lz_from_envelope (der_loader_with 20) 40 true (e_plain [e_attr a_counter [e_deep 30]])) = false.
Proof. vm_compute. repeat split. Qed.

(** *** C70: what the signed octets determine *)

(** Two signers, wherever they occur, over the same signed octets carry the same message
    digest, content type and signing time. *)
Theorem C70_attributes :
  forall b b' a a' i i', opened b a -> opened b' a' -> signer_of a i -> signer_of a' i' ->
  si_encoded i = si_encoded i' ->
  si_message_digest i = si_message_digest i' /\ si_content_type i = si_content_type i' /\
  si_signing_time i = si_signing_time i'.
Proof. exact attributes_determined. Qed.
Print Assumptions C70_attributes.

(** A signature over a timestamp token is never one over an Authenticode content or the other
    way around: neither the signed octets nor the contents can be the same. *)
Theorem C70_purposes :
  forall b b' a a' t, opened b a -> opened b' a' -> token_of a' t ->
  si_encoded (asi_info (asd_signer a)) <> si_encoded (r_signer t) /\
  sd_octets (asd_data a) <> sd_octets (r_data t).
Proof. exact purposes_distinct. Qed.
Print Assumptions C70_purposes.

(** The octets that are hashed determine the digest of the file, although they are found in
    two ways (version 1, and above). *)
Theorem C70_content :
  forall b b' a a', opened b a -> opened b' a' ->
  sd_octets (asd_data a) = sd_octets (asd_data a') -> asd_spc a = asd_spc a'.
Proof. exact spc_determined. Qed.
Print Assumptions C70_content.

(** The same for the TSTInfo of tokens. *)
Theorem C70_token :
  forall b b' a a' t t', opened b a -> opened b' a' -> token_of a t -> token_of a' t' ->
  sd_octets (r_data t) = sd_octets (r_data t') -> r_tst t = r_tst t'.
Proof. exact tst_determined. Qed.
Print Assumptions C70_token.

(** Tokens over the same signed octets state the same, or the hash function has a
    collision. *)
Theorem C70_stamp :
  forall E b b' a a' t t',
  opened b a -> opened b' a' -> token_of a t -> token_of a' t' ->
  content_matches E (r_data t) (r_signer t) -> content_matches E (r_data t') (r_signer t') ->
  si_encoded (r_signer t) = si_encoded (r_signer t') ->
  r_tst t = r_tst t' \/
  collides E (sd_digest_alg (r_data t)) (sd_digest_alg (r_data t')) (sd_octets (r_data t)) (sd_octets (r_data t')).
Proof. exact stamp_determined. Qed.
Print Assumptions C70_stamp.

(** One signature, two files: if both are accepted for signatures over the same signed octets
    (and so with the same signature value and key), what is hashed of the files is the same, or
    the hash function has a collision that these files and envelopes exhibit. *)
Theorem C70_image :
  forall E depth fuel mode ign v w out depth' fuel' mode' ign' v' w' out' a c a' c',
  lz_verify_result der_loader E depth fuel mode None ign v w = Ok out ->
  lz_verify_result der_loader E depth' fuel' mode' None ign' v' w' = Ok out' ->
  In (a, c) out -> In (a', c') out' ->
  si_encoded (asi_info (asd_signer a)) = si_encoded (asi_info (asd_signer a')) ->
  collides E (digest_of a) (digest_of a') (sd_octets (asd_data a)) (sd_octets (asd_data a')) \/
  (asd_spc a = asd_spc a' /\ digest_of a = digest_of a' /\
   exists d d', snd (omit_sections (w_file w)) = Ok (Some d) /\ snd (omit_sections (w_file w')) = Ok (Some d') /\
     let x := kept (map snd d) (f_bytes (w_file w)) in
     let y := kept (map snd d') (f_bytes (w_file w')) in
     x = y \/ collides E (digest_of a) (digest_of a) x y).
Proof. exact image_determined. Qed.
Print Assumptions C70_image.

(** Two different files with the same signed octets (in the second the signature has a nested
    one besides) are both verified; a file with another byte of code is not. *)
Definition ex_files (f : file) : res (list bytes) :=
  match lz_verify_result der_loader e_env 9 60 "first" None true (ex_v None None "strict") (e_world f) with
  | Ok l => Ok (map (fun x => si_encoded (asi_info (asd_signer (fst x)))) l)
  | Err e => Err e
  end.
Example C70_run :
  let f := e_image x01 [] in
  let g := e_image x01 [e_attr a_nested [e_plain []]] in
  let h := mkFile (ztake 230 (f_bytes f) ++ [x21] ++ zskip 231 (f_bytes f)) 0 in
  bytes_eqb (f_bytes f) (f_bytes g) = false /\
  is_ok (ex_files f) = true /\ ex_files f = ex_files g /\
  is_ok (ex_files (e_image x03 [])) = true /\
  ex_files h = raise AuthenticodeInvalidDigestError "The expected hash does not match the digest in SpcInfo".
Proof. vm_compute. repeat split. Qed.

(** The hypotheses of the others: a token inside an envelope in either form. *)
Example C70_tokens :
  exists a a' t t',
    opened (e_stamped (e_token (str "h") [])) a /\ opened (e_envelope x03 (str "x") [e_attr a_token [e_token (str "h") []]]) a' /\
    token_of a t /\ token_of a' t' /\ si_encoded (r_signer t) = si_encoded (r_signer t') /\
    sd_octets (asd_data a) <> sd_octets (asd_data a') /\
    content_matches e_env (r_data t) (r_signer t).
Proof.
  destruct (lz_from_envelope der_loader 9 true (e_stamped (e_token (str "h") []))) as [a|e] eqn:Q; [|vm_compute in Q; discriminate Q].
  destruct (lz_from_envelope der_loader 9 true (e_envelope x03 (str "x") [e_attr a_token [e_token (str "h") []]])) as [a'|e] eqn:Q';
    [|vm_compute in Q'; discriminate Q'].
  assert (R : In a (recursive_nested true a)) by (destruct a as [? ? [? ? ?] ?]; left; reflexivity).
  assert (R' : In a' (recursive_nested true a')) by (destruct a' as [? ? [? ? ?] ?]; left; reflexivity).
  assert (T : exists t, token_of a t /\ content_matches e_env (r_data t) (r_signer t)).
  { vm_compute in Q. injection Q as <-. eexists. split; [reflexivity|]. vm_compute. reflexivity. }
  destruct T as (t & T & M).
  assert (T' : exists t, token_of a' t) by (vm_compute in Q'; injection Q' as <-; eexists; reflexivity).
  destruct T' as (t' & T').
  exists a, a', t, t'. split; [exists 9%nat, true, a; split; assumption|]. split; [exists 9%nat, true, a'; split; assumption|].
  split; [exact T|]. split; [exact T'|].
  vm_compute in Q. vm_compute in Q'. injection Q as <-. injection Q' as <-.
  vm_compute in T. vm_compute in T'. injection T as <-. injection T' as <-.
  split; [vm_compute; reflexivity|]. split; [vm_compute; discriminate|exact M].
Qed.
