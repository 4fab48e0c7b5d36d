(** Property C81: the listing of a trust store, and the text of a certificate. *)
From Coq Require Import Sorting.Permutation Sorting.Sorted.
From Verif Require Import Base Bytes Monad ModelFile ModelX509 SpecX509 ProofsX509 ModelContext SpecContext ModelListing SpecListing
  ProofsListing PropertiesX509 PropertiesContext.

(** Every certificate of the store is listed once, in the order of the ends of their validity
    and otherwise as in the store, with numbers from 1 on; unless times cannot be compared, and
    up to the first whose name is not text. *)
Theorem C81_listing :
  forall E show r w s, nth_error (w_stores w) r = Some s -> readable s ->
  exists w' lines res, list_store E show r w = (w', (heading :: lines, res)) /\
  ((~ of_one_kind (contents s) /\ lines = [] /\ exists e, res = Err e /\ e_class e = TypeError) \/
   exists l, by_expiry (contents s) l /\
   ((Forall named l /\ res = Ok tt /\ numbered E show 1 l lines) \/
    exists pre c post before cut e, l = pre ++ c :: post /\ Forall named pre /\ ~ named c /\
      numbered E show 1 pre before /\ line_start show (1 + zlen pre) c cut /\ lines = before ++ [cut] /\
      res = Err e /\ e_class e = TypeError)).
Proof. exact c81. Qed.
Print Assumptions C81_listing.

(** There is one such order only. *)
Theorem C81_order : forall l m m', by_expiry l m -> by_expiry l m' -> m = m'.
Proof. exact expiry_unique. Qed.
Print Assumptions C81_order.

(** Nothing is listed of a store that cannot be read. *)
Theorem C81_unreadable :
  forall E show r w s l e, nth_error (w_stores w) r = Some s -> s_location s = Some l -> s_loaded s = false ->
  location_error l = Some e -> exists w', list_store E show r w = (w', ([heading], Err e)).
Proof. exact c81_unreadable. Qed.
Print Assumptions C81_unreadable.

(** The text of a certificate determines its subject, its serial number and its digest. *)
Theorem C81_text :
  forall E a b t, wf_name (c_subject a) -> wf_name (c_subject b) -> cert_text E a = Ok t -> cert_text E b = Ok t ->
  rdns (c_subject a) = rdns (c_subject b) /\ c_serial a = c_serial b /\ e_hash E "sha1" (c_der a) = e_hash E "sha1" (c_der b).
Proof. exact text_names. Qed.
Print Assumptions C81_text.

(** It is there just when the messages that mention the certificate can be formatted. *)
Theorem C81_text_defined : forall E c, (exists t, cert_text E c = Ok t) <-> cert_str c = Ok tt.
Proof. exact text_defined. Qed.
Print Assumptions C81_text_defined.

(** A store with equal ends, one of them in a file; one with a subject that is not text, and
    one with times of both kinds. *)
Definition ex_show (d : datetime) : ustr := match d with Aware z => ustr_of (int_str z) | Naive _ => ustr_of "naive" end.
Definition ex_short_lived : cert := mkCert 30 [x30; x31] ex_int_name (-4) ex_ca ex_key 0 70 None.
Definition ex_odd : cert := mkCert 31 [x31] ex_int_name 4 [mkRdn (mkAva "2.5.4.45" (VBytes [x00])) []] ex_key 0 80 None.
Definition ex_naive : cert := mkCert 32 [x32] ex_int_name 4 ex_ca ex_key 0 (Naive 80) None.
Definition ex_listed : store := mkStore [ex_root; ex_leaf] true None (Some [([ex_short_lived; ex_int], None)]) false.
Definition list_of (s : store) := snd (list_store ex_env ex_show 0 (mkWorld [s] [] ex_file)).
Example C81_run :
  readable ex_listed /\
  snd (list_of ex_listed) = Ok tt /\
  Forall2 (fun l n => exists rest, l = ustr_of n ++ rest)
    (fst (list_of ex_listed)) ["This"; "1 70 CN=Root\, "; "2 5000 CN=Root\, "; "3 5000 1.2.3=, CN=\#Leaf"; "4 5000 CN="] /\
  list_of (mkStore [ex_root; ex_odd; ex_short_lived] true None None false) =
    ([heading; ustr_of "1 70 CN=Root\, \""CA\"" #1\ , C=NL (serial:-4, sha1:" ++ ustr_of (sha1_fingerprint ex_env ex_short_lived) ++ ustr_of ")";
      ustr_of "2 80 "], Err (mkExn TypeError "cannot use a string pattern on a bytes-like object")) /\
  list_of (mkStore [ex_root; ex_naive] true None None false) =
    ([heading], Err (mkExn TypeError "can't compare offset-naive and offset-aware datetimes")).
Proof.
  split. { intros l H _. injection H as <-. reflexivity. }
  split; [vm_compute; reflexivity|].
  split. { set (l := fst (list_of ex_listed)). vm_compute in l. subst l. repeat (constructor; [eexists; reflexivity|]). constructor. }
  split; vm_compute; reflexivity.
Qed.
(** A certificate that has a text. *)
Example C81_text_met : exists t, cert_text ex_env ex_root = Ok t /\ wf_name (c_subject ex_root).
Proof. eexists. split; [vm_compute; reflexivity|]. wf_name_tac. Qed.
