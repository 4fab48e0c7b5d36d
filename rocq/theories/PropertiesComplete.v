(** Property C59 and more about C42: what is accepted, exactly. *)
From Verif Require Import Base Bytes Monad ModelFile ModelFingerprint SpecFingerprint ProofsFingerprint ModelPE SpecPE ModelX509 SpecX509
  ModelContext SpecContext ProofsCTL ProofsContext ProofsContext2 ModelPkcs7 ModelAuthenticode SpecAuthenticode SpecSignedPE ProofsSignedPE2 SpecComplete
  ProofsComplete ProofsComplete2 PropertiesFingerprint
  PropertiesX509 PropertiesContext PropertiesPE PropertiesPkcs7 PropertiesAuthenticode PropertiesSignedPE.

(** *** C42 *)

(** When trust is affirmed, for all stores, trust lists and certificates: a store accepts,
    and those before it raise an error that is caught. *)
Theorem C42_exact :
  forall E x root rest w l c,
  nth_error (w_contexts w) x = Some c ->
  Forall2 (fun r s => nth_error (w_stores w) r = Some s) (x_stores c) l -> reusable c ->
  (verify_trust E x (root :: rest) w = (w, Ok true) <->
   vouches E s_items l (root :: rest) (asked_time E c) (asked_usages c)).
Proof. intros E x root rest w l c H R Ru. exact (verify_trust_exact E x root rest w l c H R (reusable_stable _ Ru)). Qed.
Print Assumptions C42_exact.

(** It is the store in front with the unsupported list that matters in [C42_refuted]. *)
Example C42_exact_run :
  let s1 := mkStore [ex_root] true (Some (mkCtl "sha512" [])) None false in
  let s2 := mkStore [ex_root] true None None false in
  let w l := mkWorld [s1; s2] [mkContext l None None None false ex_opts] ex_file in
  verify_trust ex_env 0 [ex_root; ex_leaf] (w [1; 0]%nat) = (w [1; 0]%nat, Ok true) /\
  is_ok (snd (verify_trust ex_env 0 [ex_root; ex_leaf] (w [0; 1]%nat))) = false /\
  vouches ex_env s_items [s2; s1] [ex_root; ex_leaf] (e_now ex_env) [] /\
  ~ passes_over ex_env s1 [ex_root] [ex_root; ex_leaf] (e_now ex_env) [].
Proof.
  cbv zeta. set (s1 := mkStore _ true (Some _) None false). set (s2 := mkStore _ true None None false).
  assert (V : verify_trust ex_env 0 [ex_root; ex_leaf] (mkWorld [s1; s2] [mkContext [1; 0]%nat None None None false ex_opts] ex_file)
              = (mkWorld [s1; s2] [mkContext [1; 0]%nat None None None false ex_opts] ex_file, Ok true)) by (vm_compute; reflexivity).
  split; [exact V|]. split; [vm_compute; reflexivity|]. split.
  - refine (proj1 (C42_exact ex_env 0 ex_root [ex_leaf] _ [s2; s1] (mkContext [1; 0]%nat None None None false ex_opts)
                     _ _ _) V); [reflexivity|repeat constructor|intros ? H; discriminate H].
  - intros (root & rest & [= <- <-] & [[N _]|(_ & t & H & I & _)]).
    + apply N. split; [reflexivity|]. exists ex_root. split; [now left|reflexivity].
    + injection H as <-. cbn in I. intuition discriminate.
Qed.

(** *** C59: exactly what is accepted *)

(** A SignedData is accepted, for a given hash, iff it is proper: in particular every proper
    one is.  For signers naming one certificate, and if countersignatures must hold. *)
Theorem C59_exact :
  forall E fuel a h v w cx l chains,
  all_regular w v a cx l -> (va_mode v = "strict" \/ forall c, ~ considered a v c) ->
  (snd (asd_verify E fuel a (Some h) v w) = Ok chains <->
   exists chain, chains = [chain] /\ proper E w v a h cx l chain).
Proof. exact c59_exact. Qed.
Print Assumptions C59_exact.

(** A proper SignedData is accepted whether countersignatures must hold or not. *)
Theorem C59_accepted :
  forall E fuel a h v w cx l chain,
  all_regular w v a cx l -> proper E w v a h cx l chain ->
  snd (asd_verify E fuel a (Some h) v w) = Ok [chain].
Proof. exact c59_accepted. Qed.
Print Assumptions C59_accepted.

(** Files, with mode "all": every signature is proper. *)
Theorem C59_all :
  forall load E depth mode expected ign v w l,
  terminates_with (fun k => iterate load depth true ign k (w_file w)) (l, None) -> l <> [] -> known_names E expected ->
  shareable w v l -> (forall a, In a l -> exists cx ls, all_regular w v a cx ls) ->
  mode = "all" -> (forall a, In a l -> decided v a) ->
  exists N, forall fuel, (N <= fuel)%nat -> forall out,
    verify_result load E depth fuel mode expected ign v w = Ok out <->
    Forall2 (fun a ac => fst ac = a /\ properly_signed E w v expected a (snd ac)) l out.
Proof. exact c59_all. Qed.
Print Assumptions C59_all.

(** With mode "first": the first one. *)
Theorem C59_first :
  forall load E depth mode expected ign v w l,
  terminates_with (fun k => iterate load depth true ign k (w_file w)) (l, None) -> l <> [] -> known_names E expected ->
  shareable w v l -> (forall a, In a l -> exists cx ls, all_regular w v a cx ls) ->
  mode = "first" -> (forall a, In a l -> decided v a) ->
  exists N, forall fuel, (N <= fuel)%nat -> forall out,
    verify_result load E depth fuel mode expected ign v w = Ok out <->
    exists a l' chains, l = a :: l' /\ out = [(a, chains)] /\ properly_signed E w v expected a chains.
Proof. exact c59_first. Qed.
Print Assumptions C59_first.

(** With other modes: the first proper one of those chosen; it is found if there is no
    KeyboardInterrupt or the like before it. *)
Theorem C59_any :
  forall load E depth mode expected ign v w l,
  terminates_with (fun k => iterate load depth true ign k (w_file w)) (l, None) -> l <> [] -> known_names E expected ->
  shareable w v l -> (forall a, In a l -> exists cx ls, all_regular w v a cx ls) ->
  ~ conjunctive mode -> (forall a, In a l -> decided v a) ->
  exists sel, chosen mode l sel /\
  exists N, forall fuel, (N <= fuel)%nat -> forall out,
    (verify_result load E depth fuel mode expected ign v w = Ok out ->
     exists pre a post chains, sel = pre ++ a :: post /\ out = [(a, chains)] /\ properly_signed E w v expected a chains /\
       forall b, In b pre -> ~ exists chains, properly_signed E w v expected b chains) /\
    ((forall a h, In a sel -> due E (f_bytes (w_file w)) expected (digest_of a) h ->
        ~ interrupts (a, snd (asd_verify E 0 a (Some h) v w))) ->
     forall pre a post chains, sel = pre ++ a :: post -> properly_signed E w v expected a chains ->
       (forall b, In b pre -> ~ exists chains, properly_signed E w v expected b chains) ->
       verify_result load E depth fuel mode expected ign v w = Ok [(a, chains)]).
Proof. exact c59_any. Qed.
Print Assumptions C59_any.

(** A file whose signatures are all proper is accepted in every mode. *)
Theorem C59_file :
  forall load E depth mode expected ign v w l,
  terminates_with (fun k => iterate load depth true ign k (w_file w)) (l, None) -> l <> [] -> known_names E expected ->
  shareable w v l -> (forall a, In a l -> exists cx ls, all_regular w v a cx ls) ->
  (forall a, In a l -> exists chains, properly_signed E w v expected a chains) ->
  exists N, forall fuel, (N <= fuel)%nat ->
  exists out, verify_result load E depth fuel mode expected ign v w = Ok out /\ out <> [] /\
    Forall (fun ac => In (fst ac) l /\ properly_signed E w v expected (fst ac) (snd ac)) out.
Proof. exact c59_file. Qed.
Print Assumptions C59_file.

(** The hypotheses hold in the examples: a countersigned SignedData. *)
Ltac ids := intros ? ? A B; cbn [In concat map contents s_items s_location app] in A, B;
  repeat match goal with H : _ \/ _ |- _ => destruct H as [<-|H] end; try contradiction; intros Q; first [reflexivity|discriminate Q].

Example C59_regular :
  all_regular ex_w (ex_v None None "strict") (ex_asd (Some ex_good) ex_certs)
    (default_context [0; 2]%nat "code_signing" no_kwargs) [ex_trusted; shipped (ex_data ex_certs)].
Proof.
  assert (I : identified (concat (map contents [ex_trusted; shipped (ex_data ex_certs)]))).
  { change (identified [ex_root; ex_int; ex_leaf; ex_tsa]). ids. }
  assert (Rd : Forall readable [ex_trusted; shipped (ex_data ex_certs)]) by (repeat constructor; intros ? H; discriminate H).
  split; [now left|]. split; [intros x y H; discriminate H|]. split; [exists ex_trusted; repeat split|]. split.
  - split; [exact Rd|]. split.
    { split; intros u H; [discriminate H|]. injection H as <-. reflexivity. }
    split; [exact I|]. exists ex_leaf. change (the_signer ex_asigner ([ex_root; ex_int] ++ ex_leaf :: [ex_tsa]) ex_leaf).
    split; [split; reflexivity|]. exists [ex_root; ex_int], [ex_tsa]. split; [reflexivity|].
    split; repeat constructor; intros [? H]; discriminate H.
  - intros c [H _]. injection H as <-. exists (default_context [0; 2]%nat "time_stamping" no_kwargs).
    exists [ex_trusted; shipped (ex_data ex_certs)]. split; [exists ex_trusted; repeat split|].
    split; [exact Rd|]. split.
    { split; intros u H; [discriminate H|]. injection H as <-. reflexivity. }
    split; [exact I|]. exists ex_tsa. split; [split; reflexivity|].
    exists [ex_root; ex_int; ex_leaf], []. split; [reflexivity|].
    split; repeat constructor; intros [? H]; discriminate H.
Qed.

(** It is proper, and it would not be with an expired certificate but for the countersignature. *)
Example C59_proper :
  let cx := default_context [0; 2]%nat "code_signing" no_kwargs in
  let l := [ex_trusted; shipped (ex_data ex_certs)] in
  let chain := [ex_root; ex_int; ex_leaf] in
  proper ex_tenv ex_w (ex_v None None "strict") (ex_asd (Some ex_good) ex_certs) [x07] cx l chain /\
  ~ proper ex_tenv ex_w (ex_v None None "strict") (ex_asd (Some ex_good) ex_certs) [x08] cx l chain /\
  ex_run (Some ex_good) (ex_v None None "permit") = Ok [chain] /\
  is_ok (ex_run (Some ex_good) (ex_v None None "ignore")) = false.
Proof.
  cbv zeta.
  assert (X := fun h => C59_exact ex_tenv 0 _ h _ _ _ _ [[ex_root; ex_int; ex_leaf]] C59_regular (or_introl eq_refl)).
  split; [|split; [|vm_compute; repeat split]].
  - destruct (proj1 (X [x07])) as (chain & Q & P); [vm_compute; reflexivity|]. injection Q as <-. exact P.
  - intros P. assert (V := proj2 (X [x08]) (ex_intro _ _ (conj eq_refl P))). vm_compute in V. discriminate V.
Qed.

(** A file with two signatures. *)
Lemma ex_file_regular a :
  asi_cs (asd_signer a) = None -> sd_certificates (asd_data a) = ex_certs ->
  named (asi_info (asd_signer a)) ex_leaf ->
  exists cx ls, all_regular (ex_worldf ex_pair) (ex_v None None "strict") a cx ls.
Proof.
  intros Cs Ce Na. exists (default_context [0; 1]%nat "code_signing" no_kwargs), [ex_trusted; shipped (asd_data a)].
  split; [now left|]. split; [intros x y H; discriminate H|]. split; [exists ex_trusted; repeat split|]. split.
  2:{ intros c [H _]. congruence. }
  assert (K : concat (map contents [ex_trusted; shipped (asd_data a)]) = [ex_root; ex_int; ex_leaf; ex_tsa]).
  { unfold shipped. rewrite Ce. reflexivity. }
  split; [repeat constructor; intros ? H; discriminate H|]. split.
  { split; intros u H; [discriminate H|]. injection H as <-. reflexivity. }
  unfold regular. rewrite K. split; [ids|]. exists ex_leaf. split; [exact Na|].
  exists [ex_root; ex_int], [ex_tsa]. split; [reflexivity|]. destruct Na as [N1 N2].
  split; repeat constructor; intros [H1 H2]; rewrite <- N2 in H2; discriminate H2.
Qed.
Example C59_applies :
  exists l, terminates_with (fun k => iterate (ex_of "sha1" true "sha256" false) 9 true true k (w_file (ex_worldf ex_pair))) (l, None) /\
    length l = 2%nat /\ shareable (ex_worldf ex_pair) (ex_v None None "strict") l /\
    (forall a, In a l -> exists cx ls, all_regular (ex_worldf ex_pair) (ex_v None None "strict") a cx ls) /\
    (forall a, In a l -> decided (ex_v None None "strict") a) /\
    (exists a chains, nth_error l 0 = Some a /\ properly_signed ex_venv (ex_worldf ex_pair) (ex_v None None "strict") None a chains) /\
    (exists b, nth_error l 1 = Some b /\
       ~ exists chains, properly_signed ex_venv (ex_worldf ex_pair) (ex_v None None "strict") None b chains).
Proof.
  assert (T : exists a b, iterate (ex_of "sha1" true "sha256" false) 9 true true 9 ex_pair = Some ([a; b], None) /\
    asi_cs (asd_signer a) = None /\ asi_cs (asd_signer b) = None /\
    sd_certificates (asd_data a) = ex_certs /\ sd_certificates (asd_data b) = ex_certs /\
    named (asi_info (asd_signer a)) ex_leaf /\ named (asi_info (asd_signer b)) ex_leaf /\
    digest_of a = "sha1" /\ digest_of b = "sha256" /\
    snd (asd_verify ex_venv 0 a (Some (ex_hash "sha1" ex_pair)) (ex_v None None "strict") (ex_worldf ex_pair)) = Ok ex_chain /\
    is_ok (snd (asd_verify ex_venv 0 b (Some (ex_hash "sha256" ex_pair)) (ex_v None None "strict") (ex_worldf ex_pair))) = false).
  { do 2 eexists. split; [vm_compute; reflexivity|]. vm_compute. repeat split. }
  destruct T as (a & b & T & A1 & B1 & A2 & B2 & A3 & B3 & A4 & B4 & A5 & B5).
  assert (D : forall c, decided (ex_v None None "strict") c) by (intros c; left; reflexivity).
  assert (Du : forall alg, due ex_venv (f_bytes (w_file (ex_worldf ex_pair))) None alg (ex_hash alg ex_pair)).
  { intros alg. unfold due. cbn [supplied]. eexists. split; [vm_compute; reflexivity|].
    unfold ex_hash. replace (snd (omit_sections ex_pair)) with (snd (omit_sections (mkFile (f_bytes ex_pair) 0)))
      by (vm_compute; reflexivity).
    change (e_hash ex_venv) with (e_hash ex_env). f_equal. vm_compute. reflexivity. }
  exists [a; b]. split; [exact (iterate_done _ _ _ _ _ _ _ T)|]. split; [reflexivity|]. split; [split; discriminate|].
  split; [intros c [<-|[<-|[]]]; now apply ex_file_regular|]. split; [auto|]. split.
  - exists a, ex_chain. split; [reflexivity|]. destruct (ex_file_regular a A1 A2 A3) as (cx & ls & R).
    apply (proj1 (verdict_exact ex_venv _ _ None a (ex_hash "sha1" ex_pair) cx ls ex_chain R (D a) (eq_ind_r (fun x => due _ _ None x (ex_hash "sha1" ex_pair)) (Du "sha1") A4))).
    exact A5.
  - exists b. split; [reflexivity|]. intros (cs & P). destruct (ex_file_regular b B1 B2 B3) as (cx & ls & R).
    assert (V := proj2 (verdict_exact ex_venv _ _ None b (ex_hash "sha256" ex_pair) cx ls cs R (D b) (eq_ind_r (fun x => due _ _ None x (ex_hash "sha256" ex_pair)) (Du "sha256") B4)) P).
    rewrite V in B5. discriminate B5.
Qed.
