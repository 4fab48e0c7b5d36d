(** Property C87: exactly which files are verified, from their octets on. *)
From Verif Require Import Base Monad ModelFile ModelFingerprint ModelPE SpecFingerprint SpecPE ModelX509 SpecX509 ModelContext SpecContext ModelPkcs7
  ModelLazy ModelAuthenticode ModelLazyFile ModelDer ModelSpc ModelDecode SpecAsn SpecRead SpecPkcs7 SpecAuthenticode SpecSignedPE SpecDer
  SpecFrame SpecWhole SpecComplete SpecExact SpecEnvelope SpecOctets SpecAccepted SpecSigned ProofsBer2 ProofsOctets ProofsSigned PropertiesFingerprint
  PropertiesX509 PropertiesAuthenticode PropertiesSignedPE PropertiesExact ExampleDer PropertiesEnvelope PropertiesOctets PropertiesAccepted.

(** The iteration ends normally after these signatures iff the file has a table with entries, of
    which those of the type 2 encode these signatures: up to the end of the table or, if parse errors
    are ignored, up to where the table cannot be read on. *)
Theorem C87_read :
  forall ign f l, l <> [] ->
  (exists depth, terminates_with (fun k => octets_iterate depth ign k f) (l, None)) <-> signed_octets ign (f_bytes f) l.
Proof. exact c87_read. Qed.
Print Assumptions C87_read.

(** There are not two such lists. *)
Theorem C87_unique :
  forall ign data l l', signed_octets ign data l -> signed_octets ign data l' -> l = l'.
Proof. exact c87_unique. Qed.
Print Assumptions C87_unique.

(** A file is verified iff it is such a file, the names of the given hashes are known, and the
    signatures that the mode chooses are authentic. *)
Theorem C87_exact :
  forall E mode expected ign v w, lawful E ->
  (forall l, signed_octets ign (f_bytes (w_file w)) l -> shareable w v l /\ forall a, In a l -> tidy w v a) ->
  forall out, (exists depth, octets_settle E depth expected ign v mode w (Ok out)) <->
  exists l, signed_octets ign (f_bytes (w_file w)) l /\ known_names E expected /\ accepted_as E w v expected mode l out.
Proof. exact c87_exact. Qed.
Print Assumptions C87_exact.

(** ** Examples *)

(** The file of PropertiesOctets.v, and the hypotheses about it. *)
Example C87_signed : signed_octets false (f_bytes o_file) o_list.
Proof.
  apply C87_read; [exact (proj1 (proj1 C79_signed))|]. exists 5%nat. apply C79_read. exact (proj1 C79_signed).
Qed.
Example C87_hypotheses :
  let w := o_world o_file in let v := ex_v None None "strict" in
  lawful e_env /\ forall l, signed_octets false (f_bytes (w_file w)) l -> shareable w v l /\ forall a, In a l -> tidy w v a.
Proof.
  cbv zeta. split; [exact C79_lawful|]. intros l S. rewrite (C87_unique _ _ _ _ S C87_signed). exact (proj2 C79_tidy).
Qed.

(** With a third entry of another revision it is a signed file only if parse errors are ignored. *)
Definition s_file : file := ex_image (o_entries ++ [mkEntry 0x100 2 (str "other")]).
Definition s_table : bytes := enc_table (o_entries ++ [mkEntry 0x100 2 (str "other")]).
Example C87_table : table_at (f_bytes s_file) 240 (240 + zlen s_table).
Proof.
  exists 88, 136, 0x10B, (zlen s_table). split; [|split; [|reflexivity]].
  - vm_compute. repeat split; try discriminate; auto.
  - vm_compute. repeat split; try discriminate; auto.
Qed.
Example C87_ignored : signed_octets true (f_bytes s_file) o_list /\ forall l, ~ signed_octets false (f_bytes s_file) l.
Proof.
  split.
  - destruct C87_signed as (Ne & _). split; [exact Ne|]. exists o_entries. split.
    + exists 240, (240 + zlen s_table), (240 + zlen (enc_table o_entries)). split; [exact C87_table|split].
      * vm_compute. repeat split; try discriminate.
      * right. split; [reflexivity|]. split; [reflexivity|]. right. exists (mkEntry 0x100 2 (str "other")).
        split; [vm_compute; repeat split; discriminate|discriminate].
    + apply signed_other; [reflexivity|discriminate|].
      assert (X : exists a, lz_from_envelope der_loader 5 true o_envelope = Ok a /\ o_list = recursive_nested true a)
        by (eexists; split; [vm_compute; reflexivity|vm_compute; reflexivity]).
      destruct X as (a & X & ->). replace (recursive_nested true a) with (recursive_nested true a ++ []) by apply app_nil_r.
      apply (signed_one _ [] a); [reflexivity|reflexivity|exact (C86_accepted _ _ _ _ X)|apply unfolds_of|apply signed_none].
  - intros l. apply (not_signed _ _ _ (o_entries ++ [mkEntry 0x100 2 (str "other")]) (240 + zlen s_table) _ C87_table).
    + vm_compute. repeat split; try discriminate.
    + apply Z.le_refl.
    + intros F. rewrite Forall_forall in F. specialize (F (mkEntry 0x100 2 (str "other"))). cbn [ce_revision] in F.
      discriminate F. apply in_or_app. right. left. reflexivity.
Qed.
