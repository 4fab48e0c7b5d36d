(** What a proper signature is: conditions under which verification must succeed. *)
From Verif Require Import Base Monad ModelFile ModelFingerprint ModelPE SpecPE ModelX509 SpecX509
  ModelContext SpecContext ModelPkcs7 ModelAuthenticode SpecAuthenticode SpecSignedPE.

(** ** Trust *)

(** If the store does not accept the chain, then with an error that the search for another
    store survives: the messages can be formatted, the trust list has an algorithm that is
    supported, and no naive datetime is compared with those in the list. *)
Definition passes_over (E : env) (s : store) (items : list cert) (chain : list cert) (t : datetime)
  (requested : list string) : Prop :=
  exists root rest, chain = root :: rest /\
  ((~ holds s items root /\ printable root) \/
   (holds s items root /\ exists tl, s_ctl s = Some tl /\ In (ctl_algorithm tl) ["sha1"; "sha256"] /\
     ((dict_get (hex (list_identifier E (ctl_algorithm tl) root)) (ctl_subjects tl) = None /\ printable root) \/
      exists entry pre ee, chain = pre ++ [ee] /\
        dict_get (hex (list_identifier E (ctl_algorithm tl) root)) (ctl_subjects tl) = Some entry /\
        entry_decides entry (c_valid_from ee) t requested))).

(** A store accepts the chain, and those asked before it do not end the search. *)
Definition vouches (E : env) (items : store -> list cert) (l : list store) (chain : list cert)
  (t : datetime) (requested : list string) : Prop :=
  exists pre s post, l = pre ++ s :: post /\
    store_accepts E s (items s) chain t requested /\
    Forall (fun s => passes_over E s (items s) chain t requested) pre.

(** ** Proper signatures *)

(** [c] is the one certificate that the signer names (others are equal to it, and come later). *)
Definition the_signer (i : sinfo) (certs : list cert) (c : cert) : Prop :=
  named i c /\ exists pre post, certs = pre ++ c :: post /\ Forall (fun d => ~ named i d) pre /\
    Forall (fun d => named i d -> cert_eqb d c = true) post.

(** Different certificates are different objects. *)
Definition identified (certs : list cert) : Prop :=
  forall c d, In c certs -> In d certs -> c_id c = c_id d -> c = d.

(** The chain of [c]: accepted by the validator and vouched for, with the settings of [cx]. *)
Definition proper_chain (E : env) (cx : context) (l : list store) (c : cert) (chain : list cert) : Prop :=
  e_mk_validation E (roots l) (x_timestamp cx) (x_opts cx) c (intermediates l) = Ok tt /\
  e_validate E (roots l) (x_timestamp cx) (x_opts cx) c (intermediates l)
    (usage_list (x_key_usages cx)) (asked_usages cx) (x_optional_eku cx) = Ok (map c_id chain) /\
  incl chain (c :: concat (map contents l)) /\
  vouches E contents l chain (asked_time E cx) (asked_usages cx).

(** The time at which the chain of the signer must be valid: that of the countersignature, but
    for certificates with the lifetime signing usage. *)
Definition proper_time (cx : context) (st : option datetime) (c : cert) (t : option datetime) : Prop :=
  (st = None \/ lifetime c -> t = x_timestamp cx) /\ (st <> None -> ~ lifetime c -> t = st).

(** [i] is signed by [c], and the chain is proper at the time [t]. *)
Definition proper_signer (E : env) (i : sinfo) (cx : context) (l : list store) (t : option datetime) (c : cert)
  (chain : list cert) : Prop :=
  the_signer i (concat (map contents l)) c /\ signs E (v_allow_legacy (x_opts cx)) i c /\
  proper_chain E (at_time t cx) l c chain.

(** The countersignature is proper. *)
Definition proper_counter (E : env) (a : asd) (c : countersigner) (cy : context) (l : list store) : Prop :=
  covers E c (si_signature (asi_info (asd_signer a))) /\
  (forall t, c = CSToken t -> content_matches E (r_data t) (r_signer t)) /\
  exists d chain, proper_signer E (counter_signer c) cy l (counter_stated_time c) d chain.

(** The time that a countersignature to be checked states. *)
Definition time_of (a : asd) (v : vargs) (st : option datetime) : Prop :=
  (exists c, considered a v c /\ st = counter_stated_time c) \/
  ((forall c, ~ considered a v c) /\ st = None).

(** The SignedData is properly signed for the hash [h], by the signer with this chain. *)
Definition proper (E : env) (w : world) (v : vargs) (a : asd) (h : bytes) (cx : context) (l : list store)
  (chain : list cert) : Prop :=
  algorithms_agree a /\ sp_digest (asd_spc a) = h /\ content_matches E (asd_data a) (asi_info (asd_signer a)) /\
  (forall c, considered a v c -> exists cy ly, counter_context w a c v cy ly /\ proper_counter E a c cy ly) /\
  exists st t c, time_of a v st /\ proper_time cx st c t /\
    proper_signer E (asi_info (asd_signer a)) cx l t c chain.

(** The circumstances: stores can be read, usages can be read repeatedly, the signers name one
    certificate each. *)
Definition regular (i : sinfo) (cx : context) (l : list store) : Prop :=
  Forall readable l /\ repeatable cx /\ identified (concat (map contents l)) /\
  exists c, the_signer i (concat (map contents l)) c.
Definition all_regular (w : world) (v : vargs) (a : asd) (cx : context) (l : list store) : Prop :=
  kwargs_ok a v /\ distinct_contexts v /\ signer_context w a v cx l /\ regular (asi_info (asd_signer a)) cx l /\
  forall c, considered a v c -> exists cy ly, counter_context w a c v cy ly /\ regular (counter_signer c) cy ly.

(** The signature [a] of a file is proper for the hash that is due. *)
Definition properly_signed (E : env) (w : world) (v : vargs) (expected : option (dict bytes)) (a : asd)
  (chains : list (list cert)) : Prop :=
  exists h cx l chain, due E (f_bytes (w_file w)) expected (digest_of a) h /\ signer_context w a v cx l /\
    chains = [chain] /\ proper E w v a h cx l chain.
(** Whether it is decides the verification: an improper countersignature is not permitted. *)
Definition decided (v : vargs) (a : asd) : Prop := va_mode v = "strict" \/ forall c, ~ considered a v c.
