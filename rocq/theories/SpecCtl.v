(** What a trust list says, in terms of its decoded entries. *)
From Verif Require Import Base Monad ModelX509 SpecX509 ModelContext SpecContext.

(** ** Attributes by type *)

Definition at_ekus (a : ctl_attr) := match a with AtEnhkeyUsage v => Some v | _ => None end.
Definition at_friendly_name (a : ctl_attr) := match a with AtFriendlyName v => Some v | _ => None end.
Definition at_key_identifier (a : ctl_attr) := match a with AtKeyIdentifier v => Some v | _ => None end.
Definition at_subject_name_md5 (a : ctl_attr) := match a with AtSubjectNameMd5 v => Some v | _ => None end.
Definition at_auth_root_sha256 (a : ctl_attr) := match a with AtAuthRootSha256 v => Some v | _ => None end.
Definition at_disallowed_filetime (a : ctl_attr) := match a with AtDisallowedFiletime v => Some v | _ => None end.
Definition at_chain_policies (a : ctl_attr) := match a with AtChainPolicies v => Some v | _ => None end.
Definition at_disallowed_ekus (a : ctl_attr) := match a with AtDisallowedEnhkeyUsage v => Some v | _ => None end.
Definition at_not_before_filetime (a : ctl_attr) := match a with AtNotBeforeFiletime v => Some v | _ => None end.
Definition at_not_before_ekus (a : ctl_attr) := match a with AtNotBeforeEnhkeyUsage v => Some v | _ => None end.

(** The first value of the last attribute of a type. *)
Definition states {A} (f : ctl_attr -> option (list A)) (l : list ctl_attr) (x : A) : Prop :=
  exists pre a post vs, l = pre ++ a :: post /\ f a = Some (x :: vs) /\ Forall (fun b => f b = None) post.
Definition silent {A} (f : ctl_attr -> option (list A)) (l : list ctl_attr) : Prop :=
  Forall (fun b => f b = None) l.

Definition says {A} (f : ctl_attr -> option (list A)) (l : list ctl_attr) (o : option A) : Prop :=
  match o with Some x => states f l x | None => silent f l end.
Definition says_or {A} (f : ctl_attr -> option (list A)) (l : list ctl_attr) (default x : A) : Prop :=
  states f l x \/ (silent f l /\ x = default).
(** An empty FILETIME is as none. *)
Definition says_time (f : ctl_attr -> option (list bytes)) (l : list ctl_attr) (o : option Z) : Prop :=
  (silent f l /\ o = None) \/ exists b, states f l b /\ filetime_native b = Ok o.

(** The entry [s] is what [r] says. *)
Definition reads (r : raw_subject) (s : ctl_subject) : Prop :=
  let l := rs_attributes r in
  ts_identifier s = rs_identifier r /\
  says at_ekus l (ts_ekus s) /\
  says at_friendly_name l (ts_friendly_name s) /\
  says_or at_key_identifier l [] (ts_key_identifier s) /\
  says_or at_subject_name_md5 l [] (ts_subject_name_md5 s) /\
  says_or at_auth_root_sha256 l [] (ts_auth_root_sha256 s) /\
  says_time at_disallowed_filetime l (ts_disallowed_filetime s) /\
  says at_chain_policies l (ts_chain_policies s) /\
  says at_disallowed_ekus l (ts_disallowed_ekus s) /\
  says_time at_not_before_filetime l (ts_not_before_filetime s) /\
  says at_not_before_ekus l (ts_not_before_ekus s).

(** FILETIME values that can be converted. *)
Definition timely (b : bytes) : Prop := exists o, filetime_native b = Ok o.
(** Every attribute has a value, and FILETIME values can be converted. *)
Definition well_formed (a : ctl_attr) : Prop :=
  match a with
  | AtEnhkeyUsage v | AtChainPolicies v | AtDisallowedEnhkeyUsage v | AtNotBeforeEnhkeyUsage v => v <> []
  | AtFriendlyName v => v <> []
  | AtKeyIdentifier v | AtSubjectNameMd5 v | AtAuthRootSha256 v => v <> []
  | AtDisallowedFiletime v | AtNotBeforeFiletime v => v <> [] /\ Forall timely v
  | AtOther _ n => n <> O
  end.

(** ** Decisions *)

(** One of the requested usages is in the last attribute of the type [f]. *)
Definition concerns (f : ctl_attr -> option (list (list string))) (l : list ctl_attr) (requested : list string) : Prop :=
  exists us u, states f l us /\ In u us /\ In u requested.

(** A ban from a time on, or always. *)
Definition banned (time : ctl_attr -> option (list bytes)) (usages : ctl_attr -> option (list (list string)))
  (l : list ctl_attr) (t : datetime) (requested : list string) : Prop :=
  (exists b from us, states time l b /\ filetime_native b = Ok (Some from) /\ t = Aware us /\ from <= us /\
     (silent usages l \/ concerns usages l requested)) \/
  ((silent time l \/ states time l []) /\ concerns usages l requested).

(** The attribute states a time, but [t] is naive: they cannot be compared. *)
Definition incomparable (time : ctl_attr -> option (list bytes)) (l : list ctl_attr) (t : datetime) : Prop :=
  (exists b from, states time l b /\ filetime_native b = Ok (Some from)) /\ exists us, t = Naive us.

(** The entry allows certificates issued at [issued] to be used at [t] for [requested]. *)
Definition allows (r : raw_subject) (issued t : datetime) (requested : list string) : Prop :=
  let l := rs_attributes r in
  (forall us, states at_ekus l us -> us <> [] -> incl requested us) /\
  ~ incomparable at_not_before_filetime l issued /\
  ~ banned at_not_before_filetime at_not_before_ekus l issued requested /\
  ~ incomparable at_disallowed_filetime l t /\
  ~ banned at_disallowed_filetime at_disallowed_ekus l t requested.

(** The last entry of the list for the identifier [i]. *)
Definition last_entry (l : list raw_subject) (i : bytes) (r : raw_subject) : Prop :=
  exists pre post, l = pre ++ r :: post /\ rs_identifier r = i /\ Forall (fun q => rs_identifier q <> i) post.
