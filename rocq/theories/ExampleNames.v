(** For examples: an identity for every certificate, and names for every certificate that can be
    decoded except for chosen ones. *)
From Verif Require Import Base ModelX509 ModelContext ModelPkcs7 ModelAuthenticode ModelName SpecName ProofsName ModelDemand SpecExact SpecDemand.
Import SpecName.

(** ** Codes without a code that begins another *)

Definition code (A : Type) := A -> list bool.
Definition clear {A} (f : code A) : Prop := forall x y r s, f x ++ r = f y ++ s -> x = y /\ r = s.

Lemma code_pair {A B C} (f : code A) (g : code B) (a : C -> A) (b : C -> B) :
  (forall x y, a x = a y -> b x = b y -> x = y) -> clear f -> clear g -> clear (fun x => f (a x) ++ g (b x)).
Proof.
  intros I F G x y r s K. rewrite <- !app_assoc in K. apply F in K as [K1 K]. apply G in K as [K2 K]. auto.
Qed.
Fixpoint list_code {A} (f : code A) (l : list A) : list bool :=
  match l with [] => [false] | x :: l' => true :: f x ++ list_code f l' end.
Lemma code_list {A} (f : code A) : clear f -> clear (list_code f).
Proof.
  intros F l. induction l as [|x l IH]; intros [|y k] r s K; cbn [list_code app] in K; try discriminate K.
  - injection K as <-. auto.
  - injection K as K. rewrite <- !app_assoc in K. apply F in K as [-> K]. apply IH in K as [-> ->]. auto.
Qed.
Definition option_code {A} (f : code A) (o : option A) : list bool := match o with None => [false] | Some x => true :: f x end.
Lemma code_option {A} (f : code A) : clear f -> clear (option_code f).
Proof.
  intros F [x|] [y|] r s K; cbn [option_code app] in K; try discriminate K; injection K as K; [|auto].
  apply F in K as [-> ->]. auto.
Qed.
Fixpoint positive_code (p : positive) : list bool :=
  match p with xH => [false] | xO p => true :: false :: positive_code p | xI p => true :: true :: positive_code p end.
Lemma code_positive : clear positive_code.
Proof.
  intros p. induction p as [p IH|p IH|]; intros [q|q|] r s K; cbn [positive_code app] in K; try discriminate K; injection K as K;
    try (apply IH in K as [-> ->]); auto.
Qed.
Definition Z_code (z : Z) : list bool :=
  match z with Z0 => [false] | Zpos p => true :: false :: positive_code p | Zneg p => true :: true :: positive_code p end.
Lemma code_Z : clear Z_code.
Proof.
  intros [|p|p] [|q|q] r s K; cbn [Z_code app] in K; try discriminate K; injection K as K; auto;
    apply code_positive in K as [-> ->]; auto.
Qed.
Lemma code_into {A B} (f : code B) (g : A -> B) : (forall x y, g x = g y -> x = y) -> clear f -> clear (fun x => f (g x)).
Proof. intros I F x y r s K. apply F in K as [K ->]. auto. Qed.
Lemma code_map {A B} (f : code B) (g : A -> B) : (forall x y, g x = g y -> x = y) -> clear f -> clear (fun l => list_code f (map g l)).
Proof.
  intros I F. apply (code_into (list_code f) (map g)); [|now apply code_list].
  intros x. induction x as [|a x IH]; intros [|b y] K; cbn [map] in K; try discriminate K; [reflexivity|].
  injection K as K1 K2. f_equal; auto.
Qed.

Definition bytes_code (b : bytes) : list bool := list_code Z_code (map Z_of_byte b).
Lemma code_bytes : clear bytes_code.
Proof.
  apply code_map; [|apply code_Z]. intros x y K. unfold Z_of_byte in K.
  assert (Byte.of_N (Byte.to_N x) = Byte.of_N (Byte.to_N y)) as Q by (f_equal; lia).
  rewrite !Byte.of_to_N in Q. now injection Q.
Qed.
Definition string_code (s : string) : list bool := bytes_code (list_byte_of_string s).
Lemma code_string : clear string_code.
Proof.
  apply (code_into bytes_code list_byte_of_string); [|apply code_bytes]. intros x y K.
  now rewrite <- (string_of_list_byte_of_string x), K, string_of_list_byte_of_string.
Qed.
Definition ustr_code (u : ustr) : list bool := list_code Z_code (map Z.of_N u).
Lemma code_ustr : clear ustr_code.
Proof. apply code_map; [intros x y; lia|apply code_Z]. Qed.
Definition nval_code (n : nval) : list bool := match n with VStr u => true :: ustr_code u | VBytes b => false :: bytes_code b end.
Lemma code_nval : clear nval_code.
Proof.
  intros [u|b] [u'|b'] r s K; cbn [nval_code app] in K; try discriminate K; injection K as K;
    [apply code_ustr in K as [-> ->]|apply code_bytes in K as [-> ->]]; auto.
Qed.
Definition ava_code (x : ava) : list bool := string_code (a_oid x) ++ nval_code (a_val x).
Lemma code_ava : clear ava_code.
Proof. apply code_pair; [|apply code_string|apply code_nval]. intros [] [] K L. cbn in *. congruence. Qed.
Definition rdn_code (x : rdn) : list bool := ava_code (r_first x) ++ list_code ava_code (r_rest x).
Lemma code_rdn : clear rdn_code.
Proof. apply code_pair; [|apply code_ava|apply code_list, code_ava]. intros [] [] K L. cbn in *. congruence. Qed.
Definition name_code : name -> list bool := list_code rdn_code.
Lemma code_name : clear name_code.
Proof. apply code_list, code_rdn. Qed.
Definition params_code (p : pkparams) : list bool :=
  match p with PNone => [false] | PStr s => true :: false :: string_code s | PDict s => true :: true :: string_code s end.
Lemma code_params : clear params_code.
Proof.
  intros [|t|t] [|u|u] r s K; cbn [params_code app] in K; try discriminate K; injection K as K; auto;
    apply code_string in K as [-> ->]; auto.
Qed.
Definition spki_code (k : spki) : list bool := string_code (k_alg k) ++ params_code (k_params k) ++ bytes_code (k_bits k).
Lemma code_spki : clear spki_code.
Proof.
  intros [a p b] [a' p' b'] r s K. unfold spki_code in K. cbn [k_alg k_params k_bits] in K. rewrite <- !app_assoc in K.
  apply code_string in K as [-> K]. apply code_params in K as [-> K]. apply code_bytes in K as [-> ->]. auto.
Qed.
Definition datetime_code (d : datetime) : list bool := match d with Aware z => true :: Z_code z | Naive z => false :: Z_code z end.
Lemma code_datetime : clear datetime_code.
Proof.
  intros [t|t] [u|u] r s K; cbn [datetime_code app] in K; try discriminate K; injection K as K; apply code_Z in K as [-> ->]; auto.
Qed.
Definition cert_code (c : cert) : list bool :=
  Z_code (c_id c) ++ bytes_code (c_der c) ++ name_code (c_issuer c) ++ Z_code (c_serial c) ++ name_code (c_subject c) ++
  spki_code (c_key c) ++ datetime_code (c_valid_from c) ++ datetime_code (c_valid_to c) ++
  option_code (list_code string_code) (c_eku c).
Lemma code_cert : clear cert_code.
Proof.
  intros [a b c d e f g h i] [a' b' c' d' e' f' g' h' i'] r s K. unfold cert_code in K.
  cbn [c_id c_der c_issuer c_serial c_subject c_key c_valid_from c_valid_to c_eku] in K. rewrite <- !app_assoc in K.
  apply code_Z in K as [-> K]. apply code_bytes in K as [-> K]. apply code_name in K as [-> K]. apply code_Z in K as [-> K].
  apply code_name in K as [-> K]. apply code_spki in K as [-> K]. apply code_datetime in K as [-> K].
  apply code_datetime in K as [-> K]. apply (code_option _ (code_list _ code_string)) in K as [-> ->]. auto.
Qed.

(** Distinct certificates are distinct objects. *)
Fixpoint bits (l : list bool) : positive :=
  match l with [] => xH | true :: l' => xI (bits l') | false :: l' => xO (bits l') end.
Definition object_of (c : cert) : Z := Zpos (bits (cert_code c)).
Lemma object_of_inj c d : object_of c = object_of d -> c = d.
Proof.
  intros K. assert (cert_code c = cert_code d) as Q.
  { injection K as K. revert K. generalize (cert_code c) (cert_code d). induction l as [|[] l IH]; intros [|[] k] K; cbn [bits] in K; try discriminate K;
      try injection K as K; f_equal; auto. }
  apply (code_cert c d [] []). now rewrite Q.
Qed.

(** ** Names *)

Definition given (n : name) : lz_name := Ok (map (fun q => Ok (map decoded (r_first q :: r_rest q))) n).
Lemma given_stands n : stands_for (given n) n.
Proof.
  exists (map (fun q => Ok (map decoded (r_first q :: r_rest q))) n). split; [reflexivity|]. induction n as [|[[o u] rest] n IH]; cbn [map]; constructor; [|exact IH].
  apply reads_first.
Qed.
(** A name with the value of an attribute cut short. *)
Definition cut_error : exn := mkExn ValueError "Insufficient data - 5 bytes requested but only 4 available".
Definition cut : lz_name := Ok [Ok [mkLzAva (Ok "2.5.4.3") (Err cut_error)]].
Lemma cut_broken : broken cut cut_error.
Proof. exists []. right. exists [], (Ok [mkLzAva (Ok "2.5.4.3") (Err cut_error)]), []. repeat split; constructor. Qed.
Lemma cut_unsound : ~ sound cut.
Proof. intros K. exact (sound_broken _ _ K cut_broken). Qed.

(** The issuers of the certificates that satisfy [f] and the subjects of those that satisfy [g] are cut. *)
Definition some_cut (f g : cert -> bool) : names :=
  mkNames (fun c => if f c then cut else given (c_issuer c)) (fun c => if g c then cut else given (c_subject c))
          (fun i => given (si_issuer i)) object_of.
Definition no_cert (c : cert) : bool := false.

Lemma some_cut_faithful f g : faithful (some_cut f g).
Proof.
  split; [|split; [|split]]; cbn [some_cut n_issuer n_subject n_signer n_object].
  - intros c. destruct (f c); [intros K; now elim cut_unsound|]. intros _. apply given_stands.
  - intros c. destruct (g c); [intros K; now elim cut_unsound|]. intros _. apply given_stands.
  - intros i _. apply given_stands.
  - apply object_of_inj.
Qed.
Lemma given_foreign n : raises_foreign (given n).
Proof.
  split; [discriminate|]. intros l r e K Hin Q. injection K as <-. apply in_map_iff in Hin as (q & <- & _). inversion Q; discriminate.
Qed.
Lemma cut_foreign : raises_foreign cut.
Proof.
  split; [discriminate|]. intros l r e K Hin Q. injection K as <-. destruct Hin as [<-|[]]. inversion Q; subst. split; reflexivity.
Qed.
Lemma some_cut_foreign f g : foreign_names (some_cut f g).
Proof.
  split; cbn [some_cut n_issuer n_subject n_signer].
  - intros c. split; [destruct (f c)|destruct (g c)]; try apply cut_foreign; apply given_foreign.
  - intros i. apply given_foreign.
Qed.
Lemma some_cut_legible f g c : f c = false -> g c = false -> legible (some_cut f g) c.
Proof. intros A B. unfold legible. cbn [some_cut n_issuer n_subject]. rewrite A, B. split; eexists; apply given_stands. Qed.
Lemma some_cut_signer f g i : sound (n_signer (some_cut f g) i).
Proof. eexists. apply given_stands. Qed.
