(** Decoding on demand gives nothing that complete decoding does not give. *)
From Coq Require Import ZifyBool ZifyNat.
From Verif Require Import Base Monad ModelX509 ModelPkcs7 ModelLazy.

(** ** Completing a lazily decoded value: what cannot be read becomes a default *)

Definition force {A} (d : A) (r : res A) : A := match r with Ok x => x | Err _ => d end.

Definition conv_alg (a : lz_algid) : algid := mkAlgid (force "" (la_name a)) (force false (la_params a)).

Definition no_alg : lz_algid := mkLzAlgid (Ok "") (Ok false).

Definition conv_value (v : lz_value) : raw_value :=
  match v with
  | LVSpc s => RVSpc (mkRawSpc (force "" (lp_type s)) (match lp_value s with Ok (Some _) => true | _ => false end)
                               (conv_alg (force no_alg (lp_digest_alg s))) (force [] (lp_digest s)))
  | LVTst t => RVTst (mkRawTst (force "" (lt_version t)) (force "" (lt_policy t))
                        (conv_alg (force no_alg (lt_hash_alg t))) (force [] (lt_hashed_message t))
                        (force 0 (lt_serial t)) (force (Aware 0) (lt_gen_time t))
                        (match lt_accuracy t with
                         | Ok (Some y) => Some (force None (ly_seconds y), force None (ly_millis y), force None (ly_micros y))
                         | _ => None
                         end)
                        (match lt_tsa t with
                         | Ok (LzTsaDirectory n) => TsaDirectory (force [] n)
                         | Ok (LzTsaOther k) => TsaOther k
                         | _ => TsaAbsent
                         end))
  | LVNone => RVNone
  end.

Definition conv_choice (c : res lz_choice) : raw_choice :=
  match c with
  | Ok (LzCertificate x) =>
      match lz_certificate x with Ok y => ChoiceCertificate y | Err _ => ChoiceOther "" end
  | Ok (LzOtherChoice k) => ChoiceOther k
  | Err _ => ChoiceOther ""
  end.

Section Conv.
  Variable csi : lz_si -> raw_si.
  Variable csd : lz_sd -> raw_sd.

  Definition conv_ci (c : lz_ci) : raw_ci :=
    match c with
    | LzCI (Ok t) (Ok (LzSigned s)) => if String.eqb t "signed_data" then RawSigned (csd s) else RawOther t false
    | LzCI t _ => RawOther (force "" t) false
    end.

  Definition conv_attr (a : lz_attr) : raw_attr :=
    match a with
    | LContentType v => AContentType (map (force "") (force [] v))
    | LMessageDigest v => AMessageDigest (map (force (A:=bytes) []) (force [] v))
    | LSigningTime v => ASigningTime (map (force (Aware 0)) (force [] v))
    | LCounterSignature v => ACounterSignature (map csi (force [] v))
    | LStatementType v => AStatementType (length (force [] v))
    | LOpusInfo v => AOpusInfo (length (force [] v))
    | LNestedSignature v => ANestedSignature (map conv_ci (force [] v))
    | LTimeStampToken v => ATimeStampToken (map conv_ci (force [] v))
    | LOther t n => AOther t (force O n)
    end.

  Definition conv_attrs (l : res (list (res lz_attr))) : list raw_attr :=
    match lz_attributes l with Ok attrs => map conv_attr attrs | Err _ => [] end.

  Definition conv_si (r : lz_si) : raw_si :=
    match r with
    | LzSI sid dalg signed contents salg signature unsigned =>
        RawSI (match sid with
               | Ok (LzIssuerSerial i n) => SidIssuerSerial (force [] i) (force 0 n)
               | _ => SidKeyIdentifier []
               end) (conv_alg (force no_alg dalg)) (conv_attrs signed) contents (force "" salg)
              (force [] signature) (conv_attrs unsigned)
    end.

  Definition conv_sd (r : lz_sd) : raw_sd :=
    match r with
    | LzSD algs ctype content certs crls signers =>
        RawSD (map conv_alg (force [] algs)) (force "" ctype)
              (match content with
               | Ok c => mkRawContent (lo_octets c) (conv_value (force LVNone (lo_value c)))
               | Err _ => mkRawContent [] RVNone
               end) (map conv_choice (force [] certs)) (force O crls) (map csi (force [] signers))
    end.
End Conv.

Fixpoint conv (n : nat) : (lz_si -> raw_si) * (lz_sd -> raw_sd) :=
  match n with
  | O => ((fun _ => RawSI (SidKeyIdentifier []) (mkAlgid "" false) [] [] "" [] []),
          (fun _ => RawSD [] "" (mkRawContent [] RVNone) [] O []))
  | S n' => let c := conv n' in (conv_si (fst c) (snd c), conv_sd (fst c))
  end.

(** ** Leaves *)

Lemma rbind_ok {A B} (x : res A) (f : A -> res B) b : rbind x f = Ok b -> exists a, x = Ok a /\ f a = Ok b.
Proof. destruct x as [a|e]; cbn; intro H; [exists a; auto|discriminate]. Qed.

Ltac ok H :=
  let a := fresh "v" in let Ha := fresh "R" in let H' := fresh "K" in
  apply rbind_ok in H; destruct H as (a & Ha & H'); rename H' into H.

Lemma conv_alg_ok a s : lz_digest_algorithm a = Ok s -> get_digest_algorithm (conv_alg a) = Ok s.
Proof.
  unfold lz_digest_algorithm, get_digest_algorithm, conv_alg. cbn [alg_name alg_has_params].
  destruct (la_name a) as [n|]; cbn [rbind force]; [|discriminate].
  destruct (negb _); [discriminate|].
  destruct (la_params a) as [b|]; cbn [rbind force]; [|discriminate]. auto.
Qed.

Lemma conv_spc v s : lz_spc_info v = Ok s -> parse_spc (conv_value v) = Ok s.
Proof.
  destruct v as [x|x|]; cbn [lz_spc_info]; try discriminate. intro H.
  ok H. cbn [conv_value parse_spc rp_type rp_value rp_digest_alg rp_digest]. rewrite R. cbn [force].
  destruct (negb (String.eqb v "microsoft_spc_pe_image_data")); [discriminate|].
  ok H. rewrite R0. destruct v0 as [im|]; [|discriminate]. cbn [negb].
  ok H. ok H. ok H. ok H. ok H. rewrite R3. cbn [force]. rewrite (conv_alg_ok _ _ R4). cbn [rbind].
  rewrite R5. exact H.
Qed.

Lemma conv_tst v t : lz_tst_info v = Ok t -> parse_tst (conv_value v) = Ok t.
Proof.
  destruct v as [x|x|]; cbn [lz_tst_info]; try discriminate. intro H.
  ok H. cbn [conv_value parse_tst rt_version rt_policy rt_hash_alg rt_hashed_message rt_serial rt_gen_time rt_accuracy rt_tsa].
  rewrite R. cbn [force]. destruct (negb (String.eqb v "v1")); [discriminate|].
  ok H. ok H. ok H. ok H. ok H. ok H. ok H. ok H. ok H. ok H.
  rewrite R0, R1, R3, R4, R5, R6, R8. cbn [force]. rewrite (conv_alg_ok _ _ R2). cbn [rbind].
  assert (A: accuracy_to_python
     match v6 with
     | Some y => Some (force None (ly_seconds y), force None (ly_millis y), force None (ly_micros y))
     | None => None end = Ok v7).
  { destruct v6 as [y|]; cbn [lz_accuracy_to_python accuracy_to_python] in *; [|exact R7].
    ok R7. ok R7. ok R7. ok R7. ok R7. rewrite R10, R12, R14. cbn [force].
    rewrite R11. cbn [rbind]. rewrite R13. cbn [rbind]. exact R7. }
  rewrite A. cbn [rbind].
  destruct v8; cbn [lz_authority] in R9; [| |discriminate]; cbn [rbind]; exact H.
Qed.

Lemma conv_certificates l cs : lz_certificates l = Ok cs -> the_certificates (map conv_choice l) = cs.
Proof.
  revert cs. induction l as [|c l IH]; intros cs H; cbn [lz_certificates] in H.
  - injection H as <-. reflexivity.
  - ok H. rewrite R. destruct v as [x|k].
    + ok H. ok H. injection H as <-. cbn. rewrite R0. cbn. f_equal. apply IH. exact R1.
    + cbn. apply IH. exact H.
Qed.

Lemma conv_data csi e r d v : lz_signed_data e r = Ok (d, v) ->
  parse_signed_data e (conv_sd csi r) = Ok d /\ raw_value_of (conv_sd csi r) = conv_value v.
Proof.
  destruct r as [algs ct content certs crls sis]. cbn [lz_signed_data conv_sd parse_signed_data raw_value_of].
  intro H. ok H. ok H. ok H. ok H. ok H. ok H. ok H. ok H. injection H as <- <-. subst. cbn [force].
  rewrite R4. cbn [force]. cbn [rc_octets rc_value].
  rewrite (conv_certificates _ _ R6). split; [|reflexivity].
  destruct v0 as [|a [|]]; try discriminate. cbn [map].
  rewrite (conv_alg_ok _ _ R0). cbn [rbind]. rewrite R2. reflexivity.
Qed.

(** ** Attributes *)

Lemma attributes_readable l attrs : lz_attributes l = Ok attrs -> Forall (fun a => lz_readable a = Ok tt) attrs.
Proof.
  unfold lz_attributes. intro H. ok H. clear R. revert attrs H.
  induction v as [|a v IH]; intros attrs H; cbn [map_res] in H.
  - injection H as <-. constructor.
  - ok H. ok H. injection H as <-. ok R. ok R. injection R as <-.
    constructor; [destruct v3; exact R2|]. apply IH. exact R0.
Qed.

(** Selecting commutes with completing. *)
Lemma values_conv {A B} (f : lz_attr -> option (res (list A))) (g : raw_attr -> option B) (h : list A -> B) csi csd l :
  Forall (fun a => lz_readable a = Ok tt) l ->
  (forall a, lz_readable a = Ok tt ->
     g (conv_attr csi csd a) = match f a with Some (Ok v) => Some (h v) | _ => None end) ->
  attr_values g (map (conv_attr csi csd) l) = option_map h (lz_values f l).
Proof.
  intros F Hg. induction F as [|a l Ha _ IH]; [reflexivity|].
  cbn [map attr_values lz_values]. rewrite IH. destruct (lz_values f l); [reflexivity|]. cbn [option_map].
  rewrite (Hg _ Ha). destruct (f a) as [[v|]|]; reflexivity.
Qed.

Ltac sel := intros a Ha; destruct a as [v|v|v|v|v|v|v|v|t v]; try reflexivity; destruct v; [reflexivity|discriminate].

Section Sel.
  Variable csi : lz_si -> raw_si.
  Variable csd : lz_sd -> raw_sd.
  Variable l : list lz_attr.
  Hypothesis F : Forall (fun a => lz_readable a = Ok tt) l.

  Lemma sel_types : attr_values as_content_type (map (conv_attr csi csd) l) = option_map (map (force "")) (lz_values lz_content_type l).
  Proof. apply values_conv; [exact F|sel]. Qed.
  Lemma sel_digests : attr_values as_message_digest (map (conv_attr csi csd) l) = option_map (map (force (A:=bytes) [])) (lz_values (A:=res bytes) lz_message_digest l).
  Proof. apply values_conv; [exact F|sel]. Qed.
  Lemma sel_times : attr_values as_signing_time (map (conv_attr csi csd) l) = option_map (map (force (Aware 0))) (lz_values lz_signing_time l).
  Proof. apply values_conv; [exact F|sel]. Qed.
  Lemma sel_counter : attr_values as_counter_signature (map (conv_attr csi csd) l) = option_map (map csi) (lz_values lz_counter_signature l).
  Proof. apply values_conv; [exact F|sel]. Qed.
  Lemma sel_statement : attr_values as_statement_type (map (conv_attr csi csd) l) = option_map (@length _) (lz_values lz_statement_type l).
  Proof. apply values_conv; [exact F|sel]. Qed.
  Lemma sel_opus : attr_values as_opus_info (map (conv_attr csi csd) l) = option_map (@length _) (lz_values lz_opus_info l).
  Proof. apply values_conv; [exact F|sel]. Qed.
  Lemma sel_nested : attr_values as_nested (map (conv_attr csi csd) l) = option_map (map (conv_ci csd)) (lz_values lz_nested l).
  Proof. apply values_conv; [exact F|sel]. Qed.
  Lemma sel_token : attr_values as_token (map (conv_attr csi csd) l) = option_map (map (conv_ci csd)) (lz_values lz_token l).
  Proof. apply values_conv; [exact F|sel]. Qed.
End Sel.

Lemma present_map {A B} (h : A -> B) o : present (option_map h o) = present o.
Proof. destruct o; reflexivity. Qed.

Lemma single_conv {A} (d : A) o m x : lz_single o m = Ok x -> single (option_map (map (force d)) o) m = Ok x.
Proof.
  destruct o as [[|a [|]]|]; cbn [lz_single option_map map single]; try discriminate; auto.
  intro H. ok H. rewrite R. exact H.
Qed.

Lemma conv_signer csi csd need e r i auth unauth : lz_signer need e r = Ok (i, (auth, unauth)) ->
  parse_signer need e (conv_si csi csd r) = Ok i /\
  Forall (fun a => lz_readable a = Ok tt) auth /\ Forall (fun a => lz_readable a = Ok tt) unauth /\
  signed_attrs (conv_si csi csd r) = map (conv_attr csi csd) auth /\
  unsigned_attrs (conv_si csi csd r) = map (conv_attr csi csd) unauth.
Proof.
  destruct r as [sid dalg signed contents salg signature unsigned]. cbn [lz_signer]. intro H. ok H.
  destruct v as [issuer serial|]; [|discriminate].
  ok H. ok H. ok H. ok H. ok H. ok H. ok H. ok H. ok H. ok H. ok H. ok H. ok H.
  injection H as <- <- <-. subst.
  assert (Fa := attributes_readable _ _ R2). assert (Fu := attributes_readable _ _ R4).
  unfold conv_si. cbn [signed_attrs unsigned_attrs]. unfold conv_attrs. rewrite R2, R4.
  split; [|split; [exact Fa|split; [exact Fu|split; reflexivity]]].
  cbn [parse_signer force].
  rewrite (sel_types _ _ _ Fa), (sel_digests _ _ _ Fa), (sel_times _ _ _ Fa), !present_map.
  match type of R3 with (if ?c then _ else _) = _ => destruct c eqn:C end; [|discriminate R3].
  cbn [rbind]. rewrite (conv_alg_ok _ _ R8). cbn [rbind].
  rewrite (single_conv (A:=bytes) [] _ _ _ R9). cbn [rbind]. rewrite (single_conv "" _ _ _ R10). cbn [rbind].
  rewrite R11. cbn [rbind]. rewrite (single_conv (Aware 0) _ _ _ R12). reflexivity.
Qed.

Lemma conv_counter csi csd r unauth cs :
  Forall (fun a => lz_readable a = Ok tt) unauth ->
  unsigned_attrs (conv_si csi csd r) = map (conv_attr csi csd) unauth ->
  lz_countersignature unauth = Ok cs -> counter_signature (conv_si csi csd r) = Ok (option_map csi cs).
Proof.
  intros F U. unfold lz_countersignature, counter_signature. rewrite U, (sel_counter _ _ _ F).
  destruct (lz_values lz_counter_signature unauth) as [[|a [|]]|]; cbn; intro H; inversion H; reflexivity.
Qed.

(** ** Signers, signed data *)

Lemma conv_countersigner d : forall n r i, (d <= n)%nat -> lz_countersigner d r = Ok i ->
  parse_countersigner d (fst (conv n) r) = Ok i.
Proof.
  induction d as [|d IH]; intros n r i L H; [discriminate|].
  destruct n as [|n]; [lia|]. cbn [conv fst]. cbn [lz_countersigner] in H. ok H. ok H.
  destruct v as (s & auth & unauth). cbn [fst snd] in *.
  destruct (conv_signer (fst (conv n)) (snd (conv n)) _ _ _ _ _ _ R) as (P & Fa & Fu & Sa & Su).
  cbn [parse_countersigner]. rewrite P. cbn [rbind]. rewrite (conv_counter _ _ _ _ _ Fu Su R0). cbn [rbind].
  destruct v0 as [c|]; cbn [option_map]; [|exact H].
  ok H. rewrite (IH n c v ltac:(lia) R1). exact H.
Qed.

Lemma conv_rfc3161 n r i : (1 <= n)%nat -> lz_rfc3161_signer r = Ok i -> parse_rfc3161_signer (fst (conv n) r) = Ok i.
Proof.
  intros L H. destruct n as [|n]; [lia|]. cbn [conv fst]. unfold lz_rfc3161_signer in H. ok H. ok H.
  destruct v as (s & auth & unauth). cbn [fst snd] in *.
  destruct (conv_signer (fst (conv n)) (snd (conv n)) _ _ _ _ _ _ R) as (P & Fa & Fu & Sa & Su).
  unfold parse_rfc3161_signer. rewrite P. cbn [rbind]. rewrite (conv_counter _ _ _ _ _ Fu Su R0). cbn [rbind].
  destruct v0 as [c|]; cbn [option_map]; [discriminate|exact H].
Qed.

Lemma map_res_conv {A B C} (f : A -> res C) (g : B -> res C) (h : A -> B) l cs :
  (forall a c, f a = Ok c -> g (h a) = Ok c) -> map_res f l = Ok cs -> map_res g (map h l) = Ok cs.
Proof.
  intros K. revert cs. induction l as [|a l IH]; intros cs H; cbn [map_res map] in *; [exact H|].
  ok H. ok H. rewrite (K _ _ R). cbn [rbind]. rewrite (IH _ R0). exact H.
Qed.

Lemma conv_signers csi r l : lz_signers r = Ok l -> raw_signers (conv_sd csi r) = map csi l.
Proof. destruct r. cbn. intros ->. reflexivity. Qed.

Lemma conv_rsd n r t : (2 <= n)%nat -> lz_rsd r = Ok t -> parse_rsd (snd (conv n) r) = Ok t.
Proof.
  intros L H. destruct n as [|n]; [lia|]. cbn [conv snd]. unfold lz_rsd in H. ok H. ok H. ok H. ok H.
  destruct v as (dat & v). cbn [fst snd] in *.
  destruct (conv_data (fst (conv n)) _ _ _ _ R) as (P & V).
  unfold parse_rsd. rewrite P. cbn [rbind]. rewrite (conv_signers _ _ _ R0).
  rewrite (map_res_conv lz_rfc3161_signer parse_rfc3161_signer (fst (conv n)) _ _ ltac:(intros; apply conv_rfc3161; [lia|assumption]) R1).
  cbn [rbind]. rewrite V, (conv_tst _ _ R2). exact H.
Qed.

Lemma conv_sub {A} (m : string) (f : lz_sd -> res A) (g : raw_sd -> res A) csd c a :
  (forall s x, f s = Ok x -> g (csd s) = Ok x) -> lz_sub m f c = Ok a ->
  ci_type (conv_ci csd c) = "signed_data" /\ (let? s := ci_content (conv_ci csd c) in g s) = Ok a.
Proof.
  intros K. destruct c as [t x]. cbn [lz_sub]. intro H. ok H.
  destruct (negb (String.eqb v "signed_data")) eqn:T; [discriminate|]. ok H. ok H. subst.
  destruct v0 as [s|[|]]; try discriminate. injection R1 as <-.
  cbn [conv_ci]. apply Bool.negb_false_iff in T. rewrite T. cbn. split; [reflexivity|]. apply K. exact H.
Qed.

Lemma conv_asi n d (sub : lz_sd -> res asd) (sub' : raw_sd -> res asd) r s :
  (d <= n)%nat -> (2 <= n)%nat -> (forall x a, sub x = Ok a -> sub' (snd (conv n) x) = Ok a) ->
  lz_asi d sub r = Ok s -> parse_asi d sub' (fst (conv (S n)) r) = Ok s.
Proof.
  intros L L2 K H. cbn [conv fst]. unfold lz_asi in H. ok H. ok H. ok H. ok H. ok H. ok H.
  destruct v as (i & auth & unauth). cbn [fst snd] in *.
  destruct (conv_signer (fst (conv n)) (snd (conv n)) _ _ _ _ _ _ R) as (P & Fa & Fu & Sa & Su).
  unfold parse_asi. rewrite P. cbn [rbind]. rewrite (conv_counter _ _ _ _ _ Fu Su R0). cbn [rbind].
  assert (C: match option_map (fst (conv n)) v0 with
             | Some c => let? k := parse_countersigner d c in Ok (Some (CSPlain k))
             | None => Ok None end = Ok v1).
  { destruct v0 as [c|]; cbn [option_map]; [|exact R1]. ok R1. rewrite (conv_countersigner d n c v L R5). exact R1. }
  rewrite C. cbn [rbind]. rewrite Sa, Su, (sel_statement _ _ _ Fa), (sel_opus _ _ _ Fa), (sel_nested _ _ _ Fu),
    (sel_token _ _ _ Fu), (sel_counter _ _ _ Fu), !present_map.
  assert (S1: single_count (option_map (@length _) (lz_values lz_statement_type auth)) "Only one SpcStatementType expected" = Ok tt).
  { unfold lz_statement_types in R2. destruct (lz_values lz_statement_type auth) as [[|a [|]]|]; try discriminate; reflexivity. }
  assert (S2: single_count (option_map (@length _) (lz_values lz_opus_info auth)) "Only one SpcSpOpusInfo expected" = Ok tt).
  { unfold lz_opus_infos in R3. destruct (lz_values lz_opus_info auth) as [[|a [|]]|]; try discriminate; reflexivity. }
  rewrite S1. cbn [rbind]. rewrite S2. cbn [rbind].
  assert (N: match option_map (map (conv_ci (snd (conv n)))) (lz_values lz_nested unauth) with
             | None => Ok []
             | Some l => map_res (fun c => if negb (String.eqb (ci_type c) "signed_data") then
                    raise AuthenticodeParseError "Nested signature is not a SignedData structure"
                  else let? s := ci_content c in sub' s) l end = Ok v4).
  { destruct (lz_values lz_nested unauth) as [l|]; cbn [option_map]; [|exact R4].
    eapply map_res_conv; [|exact R4]. intros c a Hc.
    destruct (conv_sub _ _ sub' _ _ _ K Hc) as (T & U). rewrite T. exact U. }
  rewrite N. cbn [rbind].
  destruct (present (lz_values lz_counter_signature unauth) && present (lz_values lz_token unauth)); [discriminate|].
  ok H. injection H as <-.
  destruct (lz_values lz_token unauth) as [[|c [|]]|]; cbn [option_map map]; try discriminate.
  - ok R5. injection R5 as <-.
    destruct (conv_sub _ _ parse_rsd _ _ _ (fun x a => conv_rsd n x a L2) R6) as (T & U).
    rewrite T. cbn [String.eqb Ascii.eqb Bool.eqb negb].
    replace (negb ("signed_data" =? "signed_data")%string) with false by reflexivity.
    apply rbind_ok in U. destruct U as (z & Z1 & Z2). rewrite Z1. cbn [rbind]. rewrite Z2. reflexivity.
  - injection R5 as <-. reflexivity.
Qed.

Lemma conv_asd d pe : forall n r a, (2 * d + 4 <= n)%nat -> lz_asd d pe r = Ok a -> parse_asd d pe (snd (conv n) r) = Ok a.
Proof.
  induction d as [|d IH]; intros n r a L H; [discriminate|].
  destruct n as [|n]; [lia|]. cbn [conv snd]. cbn [lz_asd] in H. ok H. ok H. ok H. ok H.
  destruct v as (dat & v). cbn [fst snd] in *.
  destruct (conv_data (fst (conv n)) _ _ _ _ R) as (P & V).
  cbn [parse_asd]. rewrite P. cbn [rbind]. rewrite (conv_signers _ _ _ R0).
  assert (Q: map_res (parse_asi d (parse_asd d pe)) (map (fst (conv n)) v0) = Ok v1).
  { eapply map_res_conv; [|exact R1]. intros si s Hs. destruct n as [|n]; [lia|].
    apply (conv_asi n d (lz_asd d pe)); [lia|lia| |exact Hs]. intros x y Hx. apply IH; [lia|exact Hx]. }
  rewrite Q. cbn [rbind]. rewrite V, (conv_spc _ _ R2). cbn [rbind].
  destruct v1 as [|s [|]]; try discriminate. ok H.
  assert (C: raw_crls (conv_sd (fst (conv n)) r) = v1).
  { destruct r. cbn in R3 |- *. rewrite R3. reflexivity. }
  rewrite C. exact H.
Qed.

(** ** Envelopes *)

Definition complete (load : lz_loader) (depth : nat) (pe : bool) : loader := fun b =>
  match lz_from_envelope load depth pe b, load b with
  | Err e, _ => Err e
  | _, Ok (LzCI _ (Ok (LzSigned s))) => Ok (RawSigned (snd (conv (2 * depth + 4)) s))
  | _, _ => raise ValueError ""
  end.

Lemma complete_spec load depth pe b :
  from_envelope (complete load depth pe) depth pe b = lz_from_envelope load depth pe b.
Proof.
  unfold from_envelope, complete. destruct (lz_from_envelope load depth pe b) as [a|e] eqn:H; [|reflexivity].
  unfold lz_from_envelope in H. ok H. rewrite R. destruct v as [t x]. ok H. ok H. ok H. ok H. subst.
  destruct v1 as [s|[|]]; try discriminate. injection R3 as <-. cbn [rbind ci_type ci_content].
  replace (String.eqb "signed_data" "signed_data") with true by reflexivity. cbn [rbind].
  apply conv_asd; [lia|exact H].
Qed.

(** ** Completely decoded values are read without errors *)

Definition emb_alg (a : algid) : lz_algid := mkLzAlgid (Ok (alg_name a)) (Ok (alg_has_params a)).

Definition emb_value (v : raw_value) : lz_value :=
  match v with
  | RVSpc s => LVSpc (mkLzSpc (Ok (rp_type s))
                              (Ok (if rp_value s then Some (mkLzImage (Ok []) (Ok "")) else None))
                              (Ok (emb_alg (rp_digest_alg s))) (Ok (rp_digest s)))
  | RVTst t => LVTst (mkLzTst (Ok (rt_version t)) (Ok (rt_policy t)) (Ok (emb_alg (rt_hash_alg t)))
                        (Ok (rt_hashed_message t)) (Ok (rt_serial t)) (Ok (rt_gen_time t))
                        (Ok (match rt_accuracy t with
                             | Some (s, ms, us) => Some (mkLzAccuracy (Ok s) (Ok ms) (Ok us))
                             | None => None
                             end))
                        (Ok (match rt_tsa t with
                             | TsaAbsent => LzTsaAbsent
                             | TsaDirectory n => LzTsaDirectory (Ok n)
                             | TsaOther k => LzTsaOther k
                             end)))
  | RVNone => LVNone
  end.

Definition emb_cert (c : cert) : lz_cert :=
  mkLzCert (c_id c) (c_der c) (Ok "") (Ok []) (Ok tt) (Ok "") (Ok (c_serial c)) (Ok (c_issuer c))
    (Ok (c_valid_from c)) (Ok (c_valid_to c)) (Ok (c_subject c)) (Ok (k_alg (c_key c)))
    (Ok (k_params (c_key c))) (Ok (k_bits (c_key c)))
    (Ok (match c_eku c with Some u => Some [("extended_key_usage", XUsages u)] | None => None end)).

Definition emb_choice (c : raw_choice) : lz_choice :=
  match c with
  | ChoiceCertificate c => LzCertificate (emb_cert c)
  | ChoiceOther k => LzOtherChoice k
  end.

Definition emb_content (c : raw_content) : lz_content := mkLzContent (rc_octets c) (Ok (emb_value (rc_value c))).

Definition emb_sid (s : raw_sid) : lz_sid :=
  match s with
  | SidIssuerSerial i n => LzIssuerSerial (Ok i) (Ok n)
  | SidKeyIdentifier _ => LzKeyIdentifier
  end.

Definition no_opus : lz_opus := mkLzOpus (Ok None) (Ok None) (Ok None).

Fixpoint emb_attr (a : raw_attr) : lz_attr :=
  match a with
  | AContentType v => LContentType (Ok (map (@Ok _) v))
  | AMessageDigest v => LMessageDigest (Ok (map (@Ok bytes) v))
  | ASigningTime v => LSigningTime (Ok (map (@Ok _) v))
  | ACounterSignature v => LCounterSignature (Ok (map emb_si v))
  | AStatementType n => LStatementType (Ok (repeat (Ok []) n))
  | AOpusInfo n => LOpusInfo (Ok (repeat no_opus n))
  | ANestedSignature v => LNestedSignature (Ok (map emb_ci v))
  | ATimeStampToken v => LTimeStampToken (Ok (map emb_ci v))
  | AOther t n => LOther t (Ok n)
  end
with emb_si (r : raw_si) : lz_si :=
  match r with
  | RawSI sid dalg signed contents salg signature unsigned =>
      LzSI (Ok (emb_sid sid)) (Ok (emb_alg dalg)) (Ok (map (fun a => Ok (emb_attr a)) signed)) contents
           (Ok salg) (Ok signature) (Ok (map (fun a => Ok (emb_attr a)) unsigned))
  end
with emb_ci (c : raw_ci) : lz_ci :=
  match c with
  | RawSigned s => LzCI (Ok "signed_data") (Ok (LzSigned (emb_sd s)))
  | RawOther t sub => LzCI (Ok t) (Ok (LzOther sub))
  end
with emb_sd (r : raw_sd) : lz_sd :=
  match r with
  | RawSD algs ct content certs crls signers =>
      LzSD (Ok (map emb_alg algs)) (Ok ct) (Ok (emb_content content))
           (Ok (map (fun c => Ok (emb_choice c)) certs)) (Ok crls) (Ok (map emb_si signers))
  end.

Lemma emb_alg_eq a : lz_digest_algorithm (emb_alg a) = get_digest_algorithm a.
Proof. reflexivity. Qed.

Lemma emb_spc v : lz_spc_info (emb_value v) = parse_spc v.
Proof.
  destruct v as [s|t|]; try reflexivity. cbn -[String.eqb lz_digest_algorithm get_digest_algorithm].
  destruct (negb _); [reflexivity|]. destruct (rp_value s); cbn -[lz_digest_algorithm get_digest_algorithm]; [|reflexivity].
  rewrite emb_alg_eq. reflexivity.
Qed.

Lemma emb_tst v : lz_tst_info (emb_value v) = parse_tst v.
Proof.
  destruct v as [s|t|]; try reflexivity.
  cbn -[String.eqb lz_digest_algorithm get_digest_algorithm lz_accuracy_to_python accuracy_to_python].
  destruct (negb _); [reflexivity|]. rewrite emb_alg_eq.
  destruct (get_digest_algorithm (rt_hash_alg t)) as [alg|]; cbn [rbind]; [|reflexivity].
  replace (lz_accuracy_to_python _) with (accuracy_to_python (rt_accuracy t))
    by (destruct (rt_accuracy t) as [((s & ms) & us)|]; reflexivity).
  destruct (accuracy_to_python (rt_accuracy t)); cbn [rbind]; [|reflexivity].
  destruct (rt_tsa t); reflexivity.
Qed.

Lemma emb_cert_eq c : lz_certificate (emb_cert c) = Ok c.
Proof. destruct c as [a b i s u [ka kp kb] vf vt [e|]]; reflexivity. Qed.

Lemma emb_certificates l : lz_certificates (map (fun c => Ok (emb_choice c)) l) = Ok (the_certificates l).
Proof.
  induction l as [|[c|k] l IH]; [reflexivity| |]; cbn [map lz_certificates rbind emb_choice].
  - rewrite emb_cert_eq. cbn [rbind]. rewrite IH. reflexivity.
  - exact IH.
Qed.

Lemma emb_data e r :
  lz_signed_data e (emb_sd r) = let? d := parse_signed_data e r in Ok (d, emb_value (raw_value_of r)).
Proof.
  destruct r as [algs ct content certs crls sis]. cbn [emb_sd lz_signed_data parse_signed_data raw_value_of rbind].
  assert (A: match map emb_alg algs with [a] => lz_digest_algorithm a | _ => raise KeyError "digestAlgorithms" end
             = match algs with [a] => get_digest_algorithm a | _ => raise KeyError "digestAlgorithms" end).
  { destruct algs as [|a [|]]; reflexivity. }
  rewrite A. destruct (match algs with [a] => get_digest_algorithm a | _ => raise KeyError "digestAlgorithms" end); cbn [rbind]; [|reflexivity].
  destruct (String.eqb ct e); cbn [rbind]; [|reflexivity]. cbn [emb_content lo_value rbind lo_octets]. rewrite emb_certificates. reflexivity.
Qed.

Lemma emb_attributes l : lz_attributes (Ok (map (fun a => Ok (emb_attr a)) l)) = Ok (map emb_attr l).
Proof.
  unfold lz_attributes. cbn [rbind]. induction l as [|a l IH]; [reflexivity|].
  cbn [map map_res rbind]. replace (lz_readable (emb_attr a)) with (Ok tt) by (destruct a; reflexivity).
  cbn [rbind]. rewrite IH. reflexivity.
Qed.

Lemma values_emb {A B} (f : lz_attr -> option (res (list A))) (g : raw_attr -> option B) (h : B -> list A) l :
  (forall a, f (emb_attr a) = option_map (fun b => Ok (h b)) (g a)) ->
  lz_values f (map emb_attr l) = option_map h (attr_values g l).
Proof.
  intro K. induction l as [|a l IH]; [reflexivity|]. cbn [map attr_values lz_values]. rewrite IH.
  destruct (attr_values g l); [reflexivity|]. cbn [option_map]. rewrite K. destruct (g a); reflexivity.
Qed.

Ltac esel := intros a; destruct a; reflexivity.
Lemma emb_types l : lz_values lz_content_type (map emb_attr l) = option_map (map (@Ok _)) (attr_values as_content_type l).
Proof. apply values_emb. esel. Qed.
Lemma emb_digests l : lz_values (A:=res bytes) lz_message_digest (map emb_attr l) = option_map (map (@Ok bytes)) (attr_values as_message_digest l).
Proof. apply (values_emb (A:=res bytes)). esel. Qed.
Lemma emb_times l : lz_values lz_signing_time (map emb_attr l) = option_map (map (@Ok _)) (attr_values as_signing_time l).
Proof. apply values_emb. esel. Qed.
Lemma emb_counter l : lz_values lz_counter_signature (map emb_attr l) = option_map (map emb_si) (attr_values as_counter_signature l).
Proof. apply values_emb. esel. Qed.
Lemma emb_statement l : lz_values lz_statement_type (map emb_attr l) = option_map (repeat (Ok [])) (attr_values as_statement_type l).
Proof. apply values_emb. esel. Qed.
Lemma emb_opus l : lz_values lz_opus_info (map emb_attr l) = option_map (repeat no_opus) (attr_values as_opus_info l).
Proof. apply values_emb. esel. Qed.
Lemma emb_nested l : lz_values lz_nested (map emb_attr l) = option_map (map emb_ci) (attr_values as_nested l).
Proof. apply values_emb. esel. Qed.
Lemma emb_token l : lz_values lz_token (map emb_attr l) = option_map (map emb_ci) (attr_values as_token l).
Proof. apply values_emb. esel. Qed.

Lemma emb_single {A} (o : option (list A)) m : lz_single (option_map (map (@Ok A)) o) m = single o m.
Proof. destruct o as [[|a [|]]|]; reflexivity. Qed.

Lemma emb_signer need e r :
  lz_signer need e (emb_si r) =
  let? i := parse_signer need e r in Ok (i, (map emb_attr (signed_attrs r), map emb_attr (unsigned_attrs r))).
Proof.
  destruct r as [sid dalg signed contents salg signature unsigned].
  cbn [emb_si lz_signer rbind]. destruct sid as [i n|]; cbn [emb_sid parse_signer]; [|reflexivity].
  cbn [rbind]. rewrite !emb_attributes. cbn [rbind].
  rewrite emb_types, emb_digests, emb_times, !present_map.
  destruct (present (attr_values as_content_type signed) && present (attr_values as_message_digest signed)
            && (negb need || present (attr_values as_signing_time signed))); cbn [rbind]; [|reflexivity].
  rewrite emb_alg_eq. destruct (get_digest_algorithm dalg); cbn [rbind]; [|reflexivity].
  rewrite (emb_single (A:=bytes)), !emb_single.
  destruct (single (attr_values as_message_digest signed) _) as [md|]; cbn [rbind]; [|reflexivity].
  destruct (single (attr_values as_content_type signed) _) as [ct|]; cbn [rbind]; [|reflexivity].
  destruct (match ct with Some t => _ | None => _ end); cbn [rbind]; [|reflexivity].
  destruct (single (attr_values as_signing_time signed) _) as [st|]; cbn [rbind]; reflexivity.
Qed.

Lemma emb_countersignature r :
  lz_countersignature (map emb_attr (unsigned_attrs r)) = let? c := counter_signature r in Ok (option_map emb_si c).
Proof.
  unfold lz_countersignature, counter_signature. rewrite emb_counter.
  destruct (attr_values as_counter_signature (unsigned_attrs r)) as [[|a [|]]|]; reflexivity.
Qed.

Lemma emb_countersigner d : forall r, lz_countersigner d (emb_si r) = parse_countersigner d r.
Proof.
  induction d as [|d IH]; intro r; [reflexivity|]. cbn [lz_countersigner parse_countersigner].
  rewrite emb_signer. destruct (parse_signer true None r); cbn [rbind fst snd]; [|reflexivity].
  rewrite emb_countersignature. destruct (counter_signature r) as [[c|]|]; cbn [rbind option_map]; [|reflexivity|reflexivity].
  rewrite IH. reflexivity.
Qed.

Lemma emb_rfc3161 r : lz_rfc3161_signer (emb_si r) = parse_rfc3161_signer r.
Proof.
  unfold lz_rfc3161_signer, parse_rfc3161_signer. rewrite emb_signer.
  destruct (parse_signer false (Some "tst_info") r); cbn [rbind fst snd]; [|reflexivity].
  rewrite emb_countersignature. destruct (counter_signature r) as [[c|]|]; reflexivity.
Qed.

Lemma map_res_emb {A B C} (f : B -> res C) (g : A -> res C) (h : A -> B) l :
  (forall a, f (h a) = g a) -> map_res f (map h l) = map_res g l.
Proof. intro K. induction l as [|a l IH]; [reflexivity|]. cbn [map map_res]. rewrite K, IH. reflexivity. Qed.

Lemma emb_signers r : lz_signers (emb_sd r) = Ok (map emb_si (raw_signers r)).
Proof. destruct r. reflexivity. Qed.

Lemma emb_rsd r : lz_rsd (emb_sd r) = parse_rsd r.
Proof.
  unfold lz_rsd, parse_rsd. rewrite emb_data. destruct (parse_signed_data "tst_info" r); cbn [rbind fst snd]; [|reflexivity].
  rewrite emb_signers. cbn [rbind]. rewrite (map_res_emb _ _ _ _ emb_rfc3161), emb_tst. reflexivity.
Qed.

Lemma emb_sub {A} m (f : lz_sd -> res A) (g : raw_sd -> res A) c : (forall s, f (emb_sd s) = g s) ->
  lz_sub m f (emb_ci c) =
  if negb (String.eqb (ci_type c) "signed_data") then raise AuthenticodeParseError m
  else let? s := ci_content c in g s.
Proof.
  intro K. destruct c as [s|t sub]; cbn [emb_ci lz_sub ci_type ci_content rbind lz_content_info].
  - replace (negb (String.eqb "signed_data" "signed_data")) with false by reflexivity. apply K.
  - destruct (negb _); [reflexivity|]. destruct sub; reflexivity.
Qed.

Lemma emb_asi d (sub : lz_sd -> res asd) (sub' : raw_sd -> res asd) r : (forall s, sub (emb_sd s) = sub' s) ->
  lz_asi d sub (emb_si r) = parse_asi d sub' r.
Proof.
  intro K. unfold lz_asi, parse_asi. rewrite emb_signer.
  destruct (parse_signer false (Some spc_type) r) as [i|]; cbn [rbind fst snd]; [|reflexivity].
  rewrite emb_countersignature, emb_counter, emb_nested, emb_token.
  unfold lz_statement_types, lz_opus_infos. rewrite emb_statement, emb_opus, !present_map.
  destruct (counter_signature r) as [cs|]; cbn [rbind]; [|reflexivity].
  assert (C: match option_map emb_si cs with
             | None => Ok None
             | Some c => let? k := lz_countersigner d c in Ok (Some (CSPlain k)) end
             = match cs with None => Ok None
               | Some c => let? k := parse_countersigner d c in Ok (Some (CSPlain k)) end).
  { destruct cs as [c|]; cbn [option_map]; [rewrite emb_countersigner|]; reflexivity. }
  rewrite C. destruct (match cs with None => Ok None
               | Some c => let? k := parse_countersigner d c in Ok (Some (CSPlain k)) end); cbn [rbind]; [|reflexivity].
  destruct (attr_values as_statement_type (signed_attrs r)) as [[|[|n]]|]; try reflexivity;
  destruct (attr_values as_opus_info (signed_attrs r)) as [[|[|n']]|]; try reflexivity;
  cbn [option_map repeat rbind single_count no_opus lu_program_name lu_more_info lu_publisher_info].
  all: assert (N: match option_map (map emb_ci) (attr_values as_nested (unsigned_attrs r)) with
         | None => Ok []
         | Some l => map_res (lz_sub "Nested signature is not a SignedData structure" sub) l end
         = match attr_values as_nested (unsigned_attrs r) with
           | None => Ok []
           | Some l => map_res (fun c =>
                  if negb (String.eqb (ci_type c) "signed_data") then
                    raise AuthenticodeParseError "Nested signature is not a SignedData structure"
                  else let? s := ci_content c in sub' s) l end)
    by (destruct (attr_values as_nested (unsigned_attrs r)); cbn [option_map]; [|reflexivity];
        apply map_res_emb; intro; apply emb_sub; exact K).
  all: rewrite N; match goal with |- rbind ?x _ = _ => destruct x; cbn [rbind]; [|reflexivity] end.
  all: destruct (present _ && present _); [reflexivity|].
  all: destruct (attr_values as_token (unsigned_attrs r)) as [[|c [|]]|]; try reflexivity.
  all: cbn [option_map map]; rewrite (emb_sub _ _ parse_rsd _ emb_rsd).
  all: destruct (negb _); [reflexivity|]; destruct (ci_content c); reflexivity.
Qed.

Lemma emb_asd d pe : forall r, lz_asd d pe (emb_sd r) = parse_asd d pe r.
Proof.
  induction d as [|d IH]; intro r; [reflexivity|]. cbn [lz_asd parse_asd]. rewrite emb_data.
  destruct (parse_signed_data spc_type r); cbn [rbind fst snd]; [|reflexivity].
  rewrite emb_signers. cbn [rbind].
  rewrite (map_res_emb _ (parse_asi d (parse_asd d pe)) _ _ (fun s => emb_asi d _ _ s IH)), emb_spc.
  destruct (map_res _ _) as [sis|]; cbn [rbind]; [|reflexivity].
  destruct (parse_spc _); cbn [rbind]; [|reflexivity].
  destruct sis as [|s [|]]; try reflexivity. destruct r. reflexivity.
Qed.

Definition embed (load : loader) : lz_loader := fun b => let? c := load b in Ok (emb_ci c).

Lemma embed_spec load depth pe b : lz_from_envelope (embed load) depth pe b = from_envelope load depth pe b.
Proof.
  unfold lz_from_envelope, embed, from_envelope. destruct (load b) as [[s|t sub]|]; cbn [rbind emb_ci ci_type ci_content]; [| |reflexivity].
  - replace (String.eqb "signed_data" "signed_data") with true by reflexivity. cbn [rbind lz_content_info]. apply emb_asd.
  - destruct (String.eqb t "signed_data"); cbn [rbind]; [|reflexivity]. destruct sub; reflexivity.
Qed.
