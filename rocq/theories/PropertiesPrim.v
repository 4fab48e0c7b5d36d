(** Property C73: what the primitive values that are read stand for. *)
From Verif Require Import Base Bytes ModelX509 ModelDer ModelSpc ModelDecode SpecPrim SpecTime ProofsPrim ProofsPrim2 ProofsTime ProofsPrim3 ExampleData PropertiesFingerprint.

(** *** Numbers *)

Theorem C73_integer : forall b z, twos_complement b z <-> b <> [] /\ int_native b = z.
Proof. exact integer_native. Qed.
Print Assumptions C73_integer.
Example C73_integer_held : twos_complement [xff; x7f] (-129) /\ int_native [xff; x7f] = -129.
Proof. split; [exact (twos_next [xff] (-1) x7f (twos_first xff))|reflexivity]. Qed.

(** *** Identifiers *)

Theorem C73_oid : forall b arcs, components b arcs -> dotted b = dots arcs.
Proof. exact oid_dotted. Qed.
Print Assumptions C73_oid.
Theorem C73_oid_injective :
  forall b b' arcs arcs', components b arcs -> components b' arcs' -> dotted b = dotted b' -> arcs = arcs'.
Proof. exact oid_dotted_inj. Qed.
Print Assumptions C73_oid_injective.
Theorem C73_names :
  forall b arcs name, components b arcs ->
  (In name (map snd digest_names) -> (oid_native digest_algorithms b = name <-> In (arcs, name) digest_names)) /\
  (In name (map snd content_names) -> (oid_native content_types b = name <-> In (arcs, name) content_names)) /\
  (In name (map snd attribute_names) -> (oid_native attribute_types b = name <-> In (arcs, name) attribute_names)) /\
  (In name (map snd purpose_names) -> (oid_native key_purposes b = name <-> In (arcs, name) purpose_names)).
Proof.
  intros b arcs name C. split; [exact (digest_named b arcs name C)|]. split; [exact (content_named b arcs name C)|].
  split; [exact (attribute_named b arcs name C)|exact (purpose_named b arcs name C)].
Qed.
Print Assumptions C73_names.

(** SHA-1 is 1.3.14.3.2.26. *)
Lemma short z : 0 <= z < 128 -> subidentifier [byte_of_Z z] z.
Proof. intro H. exists [], 0, z. split; [constructor|]. split; [exact H|]. split; reflexivity. Qed.
Example C73_oid_held :
  components (unhex "2b0e03021a") [1; 3; 14; 3; 2; 26] /\
  dotted (unhex "2b0e03021a") = "1.3.14.3.2.26" /\ oid_native digest_algorithms (unhex "2b0e03021a") = "sha1".
Proof.
  split; [|vm_compute; split; reflexivity].
  exists 1, 3, [14; 3; 2; 26], [x2b], [[x0e]; [x03]; [x02]; [x1a]].
  split; [reflexivity|]. split; [left; split; split; reflexivity || discriminate|]. split; [apply (short 43); split; reflexivity || discriminate|].
  split; [|reflexivity]. constructor; [apply (short 14); split; reflexivity || discriminate|].
  constructor; [apply (short 3); split; reflexivity || discriminate|]. constructor; [apply (short 2); split; reflexivity || discriminate|].
  constructor; [apply (short 26); split; reflexivity || discriminate|constructor].
Qed.
(** A component of more than one octet: 1.2.840. *)
Example C73_oid_long :
  components (unhex "2a8648") [1; 2; 840] /\ dotted (unhex "2a8648") = "1.2.840".
Proof.
  split; [|vm_compute; reflexivity].
  exists 1, 2, [840], [x2a], [[x86; x48]].
  split; [reflexivity|]. split; [left; split; split; reflexivity || discriminate|]. split; [apply (short 42); split; reflexivity || discriminate|].
  split; [|reflexivity]. constructor; [|constructor]. exists [x86], 6, 72. split; [exact (groups_next [] 0 6 groups_nil ltac:(split; reflexivity || discriminate))|].
  split; [split; reflexivity || discriminate|]. split; reflexivity.
Qed.

(** *** Times *)

Theorem C73_days : forall y m d n, date y m d -> (days_after (y, m, d) n <-> days_from_civil y m d = n).
Proof. exact days_civil. Qed.
Print Assumptions C73_days.
Theorem C73_utc_time :
  forall y mo d h mi s zb off t,
  Forall digits2 [y; mo; d; h; mi; s] -> zone zb off ->
  time_native "utc_time" (two y ++ two mo ++ two d ++ two h ++ two mi ++ two s ++ zb) = Ok t <->
  date (utc_year y) mo d /\ clock h mi s /\
  exists n, days_after (utc_year y, mo, d) n /\ t = Aware ((((n * 24 + h) * 60 + mi - off) * 60 + s) * 1000000).
Proof. exact utc_read. Qed.
Print Assumptions C73_utc_time.
Theorem C73_general_time :
  forall y mo d h mi s zb off t,
  0 <= y < 10000 -> Forall digits2 [mo; d; h; mi; s] -> zone zb off ->
  time_native "general_time" (four y ++ two mo ++ two d ++ two h ++ two mi ++ two s ++ zb) = Ok t <->
  1 <= y /\ date y mo d /\ clock h mi s /\
  exists n, days_after (y, mo, d) n /\ t = Aware ((((n * 24 + h) * 60 + mi - off) * 60 + s) * 1000000).
Proof. exact general_read. Qed.
Print Assumptions C73_general_time.
(** Without a zone the datetime is naive; a UTCTime must have one. *)
Theorem C73_local_time :
  forall y mo d h mi s t,
  0 <= y < 10000 -> Forall digits2 [mo; d; h; mi; s] ->
  time_native "general_time" (four y ++ two mo ++ two d ++ two h ++ two mi ++ two s) = Ok t <->
  1 <= y /\ date y mo d /\ clock h mi s /\
  exists n, days_after (y, mo, d) n /\ t = Naive ((((n * 24 + h) * 60 + mi) * 60 + s) * 1000000).
Proof. exact local_read. Qed.
Print Assumptions C73_local_time.
(** 29 February exists in 2000 and not in 1900; a zone is subtracted; two digits stand for years 1950 to 2049. *)
Example C73_time_run :
  time_native "general_time" (str "20000229120000+0130") = Ok (Aware (((days_from_civil 2000 2 29 * 24 + 12) * 60 - 90) * 60 * 1000000)) /\
  time_native "general_time" (str "20000229120000") = Ok (Naive ((days_from_civil 2000 2 29 * 24 + 12) * 3600 * 1000000)) /\
  time_native "utc_time" (str "000229120000") = time_error /\
  time_native "general_time" (str "19000229120000Z") = time_error /\
  time_native "utc_time" (str "500101000000Z") = time_native "general_time" (str "19500101000000Z") /\
  time_native "utc_time" (str "491231235959Z") = time_native "general_time" (str "20491231235959Z") /\
  str "20000229120000+0130" = four 2000 ++ two 2 ++ two 29 ++ two 12 ++ two 0 ++ two 0 ++ x2b :: two 1 ++ two 30 /\
  days_from_civil 1601 1 1 = 0 /\ days_from_civil 1970 1 1 = 134774.
Proof. vm_compute. repeat split; reflexivity. Qed.

(** Exactly which texts are times: parts may be missing, a fraction is of the last part, and a newline may follow. *)
Theorem C73_general_exact : forall b t, time_native "general_time" b = Ok t <-> general_text b t.
Proof. exact general_exact. Qed.
Print Assumptions C73_general_exact.
Theorem C73_utc_exact : forall b t, time_native "utc_time" b = Ok t <-> utc_text b t.
Proof. exact utc_exact. Qed.
Print Assumptions C73_utc_exact.
Example C73_general_exact_run :
  general_text (str "2000022912,5+01") (Aware ((days_from_civil 2000 2 29 * 24 * 60 + 11 * 60 + 30) * 60000000)) /\
  general_text (str "20000229120000.0000015" ++ [x0a]) (Naive ((days_from_civil 2000 2 29 * 24 + 12) * 3600 * 1000000 + 1)) /\
  utc_text (str "0002291200-0130" ++ [x0a]) (Aware (((days_from_civil 2000 2 29 * 24 + 12) * 60 + 90) * 60000000)) /\
  (forall t, ~ general_text (str "20000229120000.Z") t) /\
  (forall t, ~ general_text (str "99991231235959.9999999Z") t) /\
  (forall t, ~ utc_text (str "000229120000+01") t).
Proof.
  split; [apply general_exact; vm_compute; reflexivity|]. split; [apply general_exact; vm_compute; reflexivity|].
  split; [apply utc_exact; vm_compute; reflexivity|].
  split; [intros t H; apply general_exact in H; vm_compute in H; discriminate H|].
  split; [intros t H; apply general_exact in H; vm_compute in H; discriminate H|].
  intros t H; apply utc_exact in H; vm_compute in H; discriminate H.
Qed.

(** *** Text *)

Theorem C73_utf8 : forall b u, text 12 b = Ok u <-> Forall scalar_value u /\ b = flat_map utf8_point u.
Proof. exact utf8_text. Qed.
Print Assumptions C73_utf8.
Theorem C73_bmp : forall b u, text 30 b = Ok u <-> Forall scalar_value u /\ b = flat_map utf16_point u.
Proof. exact bmp_text. Qed.
Print Assumptions C73_bmp.
Theorem C73_universal : forall b u, text 28 b = Ok u <-> Forall scalar_value u /\ b = flat_map utf32_point u.
Proof. exact universal_text. Qed.
Print Assumptions C73_universal.
Theorem C73_ia5 :
  forall b u, text 22 b = Ok u <-> Forall (fun x => Z_of_byte x < 128) b /\ u = map (fun x => Z.to_N (Z_of_byte x)) b.
Proof. exact ia5_text. Qed.
Print Assumptions C73_ia5.
(** The euro sign and a character beyond the basic plane, in the three encodings; a surrogate, an
    overlong form and an octet above 127 are refused. *)
Example C73_text_run :
  let u := [8364; 120120]%N in
  Forall scalar_value u /\
  text 12 (unhex "e282acf09d94b8") = Ok u /\ flat_map utf8_point u = unhex "e282acf09d94b8" /\
  text 30 (unhex "20acd835dd38") = Ok u /\ text 28 (unhex "000020ac0001d538") = Ok u /\
  text 12 (unhex "c080") = decode_error /\ text 12 (unhex "eda080") = decode_error /\ text 30 (unhex "d835") = decode_error /\
  text 28 (unhex "00110000") = decode_error /\ text 22 [x80] = decode_error.
Proof.
  cbv zeta. split; [constructor; [left; reflexivity|constructor; [right; split; [discriminate|reflexivity]|constructor]]|].
  vm_compute. repeat split; reflexivity.
Qed.
