(** Property C80: what the command line of the fingerprinter prints. *)
From Verif Require Import Base ModelFile ModelFingerprint SpecFingerprint ModelPE SpecPE ModelX509 ModelMain SpecMain ProofsMain
  PropertiesFingerprint PropertiesPE.

(** It terminates and prints the report on the files. *)
Theorem C80_main :
  forall H open names,
  exists lines r, report H open names lines r /\ terminates_with (fun k => main H open k names) (lines, r).
Proof. exact c80. Qed.
Print Assumptions C80_main.

(** There is one report only. *)
Theorem C80_determined :
  forall H open names lines r lines' r',
  report H open names lines r -> report H open names lines' r' -> lines' = lines /\ r' = r.
Proof. intros H open names lines r lines' r' R. exact (report_unique H open names lines r R lines' r'). Qed.
Print Assumptions C80_determined.

(** An image, a file that is none, and one that cannot be opened. *)
Definition ex_disk (n : string) : res bytes :=
  if String.eqb n "a.exe" then Ok (f_bytes ex_signed) else if String.eqb n "b.txt" then Ok (str "text")
  else raise OSError "No such file or directory".
Definition ex_short (n : string) (b : bytes) : bytes := byte_of_Z (zlen b) :: str n.
Example C80_run :
  main ex_short ex_disk 20 ["a.exe"; "b.txt"; "c"; "b.txt"] =
  Some (["a.exe:"; "  authentihash:"; "    md5       : ec6d6435"; "    sha1      : ec73686131"; "    sha256    : ec736861323536";
         "  generic:"; "    md5       : 306d6435"; "    sha1      : 3073686131"; "    sha256    : 30736861323536";
         "    sha512    : 30736861353132";
         "b.txt:"; "  generic:"; "    md5       : 046d6435"; "    sha1      : 0473686131"; "    sha256    : 04736861323536";
         "    sha512    : 04736861353132"; "c:"], raise OSError "No such file or directory").
Proof. vm_compute. reflexivity. Qed.
