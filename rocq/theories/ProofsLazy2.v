(** Whole verifications depend on the decoder only through the envelopes it opens. *)
From Verif Require Import Base Monad ModelFile ModelFingerprint ModelPE ModelX509 ModelContext ModelPkcs7 ModelLazy ModelAuthenticode
  ModelLazyFile ProofsLazy.

Section Agree.
  Variable lazy : lz_loader.
  Variable load : loader.
  Variable depth : nat.
  Hypothesis H : forall b, from_envelope load depth true b = lz_from_envelope lazy depth true b.

  Lemma agree_loop nested fuel flen : forall g found f,
    iter_loop load depth nested fuel flen g found f = lz_iter_loop lazy depth nested fuel flen g found f.
  Proof.
    induction fuel as [|fuel IH]; intros g found f; [reflexivity|]. cbn [iter_loop lz_iter_loop].
    destruct (cert_table_next flen g f) as [f' [[g' [c|]]|e]]; try reflexivity.
    destruct (negb (ce_revision c =? 0x200)); [reflexivity|]. destruct (ce_type c =? 2); [|apply IH].
    rewrite H. destruct (lz_from_envelope lazy depth true (ce_certificate c)); [|reflexivity]. rewrite IH. reflexivity.
  Qed.

  Lemma agree_iter nested ign fuel flen f :
    iter_signed_datas load depth nested ign fuel flen f = lz_iter_signed_datas lazy depth nested ign fuel flen f.
  Proof. unfold iter_signed_datas, lz_iter_signed_datas. rewrite agree_loop. reflexivity. Qed.

  Lemma agree_verify E fuel mode expected ign v w :
    pe_open_verify load E depth fuel mode expected ign v w = lz_pe_open_verify lazy E depth fuel mode expected ign v w.
  Proof.
    unfold pe_open_verify, lz_pe_open_verify. destruct (signed_pe_init (w_file w)) as (f' & flen). unfold pe_verify, lz_pe_verify.
    set (w' := mkWorld (w_stores w) (w_contexts w) f').
    assert (S: signed_datas load depth ign fuel flen w' = lz_signed_datas lazy depth ign fuel flen w').
    { unfold signed_datas, lz_signed_datas. rewrite agree_iter. reflexivity. }
    unfold mbind. rewrite S. reflexivity.
  Qed.
End Agree.

Lemma dict_get_set_same {V} k (v : V) d : dict_get k (dict_set k v d) = Some v.
Proof.
  induction d as [|(k', v') d IH]; cbn [dict_set dict_get]; [rewrite String.eqb_refl; reflexivity|].
  destruct (String.eqb k k') eqn:K; cbn [dict_get]; [rewrite String.eqb_refl|rewrite K]; [reflexivity|exact IH].
Qed.
Lemma dict_get_set_other {V} k k' (v : V) d : k <> k' -> dict_get k (dict_set k' v d) = dict_get k d.
Proof.
  intro N. assert (N' : String.eqb k k' = false) by (apply String.eqb_neq; exact N).
  induction d as [|(k2, v2) d IH]; cbn [dict_set dict_get]; [rewrite N'; reflexivity|].
  destruct (String.eqb k' k2) eqn:K; cbn [dict_get].
  - apply String.eqb_eq in K. subst. rewrite N'. reflexivity.
  - destruct (String.eqb k k2); [reflexivity|exact IH].
Qed.

Lemma fold_get {V} k (l : list (string * V)) : forall d, (forall x, ~ In (k, x) l) ->
  dict_get k (fold_left (fun d kv => dict_set (fst kv) (snd kv) d) l d) = dict_get k d.
Proof.
  induction l as [|(k', v) l IH]; intros d N; [reflexivity|]. cbn [fold_left fst snd]. rewrite IH.
  - apply dict_get_set_other. intros ->. apply (N v). left. reflexivity.
  - intros x Hx. apply (N x). right. exact Hx.
Qed.

Lemma usages_last l1 u l2 : (forall x, ~ In ("extended_key_usage", x) l2) ->
  last_usages (l1 ++ ("extended_key_usage", XUsages u) :: l2) = Some u.
Proof.
  intro N. unfold last_usages, dict_of_list. rewrite fold_left_app. cbn [fold_left fst snd].
  rewrite (fold_get _ _ _ N), dict_get_set_same. reflexivity.
Qed.

Lemma usages_none l : (forall x, ~ In ("extended_key_usage", x) l) -> last_usages l = None.
Proof. intro N. unfold last_usages, dict_of_list. rewrite (fold_get _ _ _ N). reflexivity. Qed.

Lemma certificate_usages c y : lz_certificate c = Ok y ->
  (forall l1 u l2, lc_extensions c = Ok (Some (l1 ++ ("extended_key_usage", XUsages u) :: l2)) ->
     (forall x, ~ In ("extended_key_usage", x) l2) -> c_eku y = Some u) /\
  (forall l, lc_extensions c = Ok (Some l) -> (forall x, ~ In ("extended_key_usage", x) l) -> c_eku y = None) /\
  (lc_extensions c = Ok None -> c_eku y = None).
Proof.
  unfold lz_certificate. intro H. do 13 (ok H). injection H as <-. cbn [c_eku]. split; [|split].
  - intros l1 u l2 E N. rewrite E in R11. injection R11 as <-. apply usages_last. exact N.
  - intros l E N. rewrite E in R11. injection R11 as <-. apply usages_none. exact N.
  - intros E. rewrite E in R11. injection R11 as <-. reflexivity.
Qed.
