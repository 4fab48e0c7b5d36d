(** What the command line prints. *)
From Verif Require Import Base ModelFile SpecPE ModelX509.

(** The digests of the content, and of what is not omitted of it if it is a usable image. *)
Definition digest_lines (H : string -> bytes -> bytes) (data : bytes) (lines : list string) : Prop :=
  let generic :=
    ["  generic:";
     "    md5       : " ++ hex (H "md5" data);
     "    sha1      : " ++ hex (H "sha1" data);
     "    sha256    : " ++ hex (H "sha256" data);
     "    sha512    : " ++ hex (H "sha512" data)]%string in
  match snd (omit_sections (mkFile data 0)) with
  | Ok (Some d) =>
      let image := kept (map snd d) data in
      lines = ["  authentihash:";
               "    md5       : " ++ hex (H "md5" image);
               "    sha1      : " ++ hex (H "sha1" image);
               "    sha256    : " ++ hex (H "sha256" image)]%string ++ generic
  | Ok None => lines = generic
  | Err _ => False
  end.

(** What is printed for these files, up to the first that cannot be opened. *)
Inductive report (H : string -> bytes -> bytes) (open : string -> res bytes) : list string -> list string -> res unit -> Prop :=
| report_end : report H open [] [] (Ok tt)
| report_file n names data lines more r :
    open n = Ok data -> digest_lines H data lines -> report H open names more r ->
    report H open (n :: names) ((n ++ ":")%string :: lines ++ more) r
| report_unopened n names e : open n = Err e -> report H open (n :: names) [(n ++ ":")%string] (Err e).
