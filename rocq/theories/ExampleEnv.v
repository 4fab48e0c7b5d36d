(** An environment to run the model in: hashes, RSA (RFC 8017, PKCS #1 v1.5) and a simple path
    validator in the place of hashlib, oscrypto and certvalidator.  It is used in examples
    only; the theorems hold for every environment.  No proofs in this file. *)
From Verif Require Import Base ModelX509 ModelPkcs7 ModelLazy ModelDer ModelSpc ModelDecode.
From Verif Require ExampleHash.

(** hashlib. *)
Definition run_hash (alg : string) (b : bytes) : bytes :=
  if String.eqb alg "md5" then ExampleHash.md5 b
  else if String.eqb alg "sha1" then ExampleHash.sha1 b
  else if String.eqb alg "sha256" then ExampleHash.sha256 b
  else if String.eqb alg "sha512" then ExampleHash.sha512 b
  else [].

(** A number as [n] big-endian octets. *)
Fixpoint octets (n : nat) (v : Z) (acc : bytes) : bytes :=
  match n with
  | O => acc
  | S n' => octets n' (v / 256) (byte_of_Z (v mod 256) :: acc)
  end.

(** [x mod n] for [0 <= x < n * n] by Barrett's method: [m] is [2 ^ (2 * k) / n] and [k] the
    number of bits of [n]. *)
Fixpoint down (fuel : nat) (x n : Z) : Z :=
  match fuel with O => x | S f => if x <? n then x else down f (x - n) n end.
(** Karatsuba's multiplication of numbers of about [k] bits. *)
Fixpoint fast_mul (levels : nat) (k : Z) (a b : Z) : Z :=
  match levels with
  | O => a * b
  | S l =>
      let h := Z.shiftr k 1 in
      let a1 := Z.shiftr a h in
      let a0 := a - Z.shiftl a1 h in
      let b1 := Z.shiftr b h in
      let b0 := b - Z.shiftl b1 h in
      let hi := fast_mul l h a1 b1 in
      let lo := fast_mul l h a0 b0 in
      let mid := fast_mul l h (a0 + a1) (b0 + b1) - hi - lo in
      Z.shiftl (Z.shiftl hi h + mid) h + lo
  end.
Definition mul (k : Z) (a b : Z) : Z := fast_mul 4 k a b.
Definition reduce (k m n x : Z) : Z :=
  let q := Z.shiftr (mul k (Z.shiftr x (k - 1)) m) (k + 1) in
  down 3 (x - mul k q n) n.
(** [b ^ e mod n]. *)
Fixpoint pow_reduce (k m n b : Z) (e : positive) : Z :=
  match e with
  | xH => b
  | xO e' => let r := pow_reduce k m n b e' in reduce k m n (mul k r r)
  | xI e' => let r := pow_reduce k m n b e' in reduce k m n (mul k (reduce k m n (mul k r r)) b)
  end.
Definition pow_mod (b : Z) (e : positive) (n : Z) : Z :=
  let k := Z.log2 n + 1 in
  pow_reduce k (Z.shiftl 1 (2 * k) / n) n (b mod n) e.

Definition RSAPublicKey := ASeq [field "modulus" aInteger; field "public_exponent" aInteger].
(** The modulus and exponent of the key in an encoded BIT STRING. *)
Definition rsa_key (k : spki) : res (Z * Z) :=
  let? (t, _) := parse_tlv (k_bits k) in
  let? (u, _) := parse_tlv (zskip 1 (t_contents t)) in
  let? b := contents_of RSAPublicKey Untagged u in
  let kids := children RSAPublicKey b in
  let? n := read RSAPublicKey kids "modulus" read_int in
  let? e := read RSAPublicKey kids "public_exponent" read_int in
  Ok (n, e).

(** The DER prefix of a DigestInfo (RFC 8017, 9.2). *)
Definition digest_info (alg : string) : bytes :=
  if String.eqb alg "md5" then
    [x30; x20; x30; x0c; x06; x08; x2a; x86; x48; x86; xf7; x0d; x02; x05; x05; x00; x04; x10]
  else if String.eqb alg "sha1" then
    [x30; x21; x30; x09; x06; x05; x2b; x0e; x03; x02; x1a; x05; x00; x04; x14]
  else if String.eqb alg "sha256" then
    [x30; x31; x30; x0d; x06; x09; x60; x86; x48; x01; x65; x03; x04; x02; x01; x05; x00; x04; x20]
  else if String.eqb alg "sha512" then
    [x30; x51; x30; x0d; x06; x09; x60; x86; x48; x01; x65; x03; x04; x02; x03; x05; x00; x04; x40]
  else [].

(** oscrypto.asymmetric.rsa_pkcs1v15_verify. *)
Definition run_rsa_verify (k : spki) (signature data : bytes) (alg : string) : res unit :=
  let? (n, e) := rsa_key k in
  let len := (Z.log2 n + 8) / 8 in
  let d := if String.eqb alg "raw" then data else digest_info alg ++ run_hash alg data in
  let em := [x00; x01] ++ repeat xff (Z.to_nat (len - 3 - zlen d)) ++ [x00] ++ d in
  match e with
  | Zpos p =>
      if bytes_eqb (octets (Z.to_nat len) (pow_mod (be_to_Z signature) p n) []) em then Ok tt
      else raise (ExtException "SignatureError") "Signature is invalid"
  | _ => value_error "exponent"
  end.

(** The algorithm, the signed octets and the signature of a certificate. *)
Definition cert_parts (c : cert) : res (string * bytes * bytes) :=
  let? (t, _) := parse_tlv (c_der c) in
  let? b := contents_of Certificate Untagged t in
  let kids := children Certificate b in
  let? tbs := read Certificate kids "tbs_certificate" (fun _ _ t => Ok (tlv_dump t)) in
  let? alg := read Certificate kids "signature_algorithm"
                (fun a tg t => la_name (read_algid signature_algorithms a tg t)) in
  let? s := read Certificate kids "signature_value" contents_of in
  Ok (alg, tbs, zskip 1 s).
Definition hash_of (alg : string) : string :=
  if String.eqb alg "md5_rsa" then "md5" else if String.eqb alg "sha1_rsa" then "sha1"
  else if String.eqb alg "sha256_rsa" then "sha256" else if String.eqb alg "sha512_rsa" then "sha512" else "".
Definition issued_by (c i : cert) : bool :=
  name_eqb (c_issuer c) (c_subject i)
  && match cert_parts c with
     | Ok (alg, tbs, s) => is_ok (run_rsa_verify (c_key i) s tbs (hash_of alg))
     | Err _ => false
     end.

(** Paths from a trust root to the certificate: a trust root ends the path. *)
Fixpoint find_path (fuel : nat) (roots inter : list cert) (c : cert) : option (list cert) :=
  if existsb (fun r => bytes_eqb (c_der r) (c_der c)) roots then Some [c]
  else
    match find (issued_by c) roots with
    | Some r => Some [r; c]
    | None =>
        match fuel with
        | O => None
        | S f =>
            match find (issued_by c) inter with
            | Some i => match find_path f roots inter i with Some p => Some (p ++ [c]) | None => None end
            | None => None
            end
        end
    end.

(** Both are aware, and [a] is not later than [b]. *)
Definition earlier (a b : datetime) : bool :=
  match a, b with Aware x, Aware y => x <=? y | _, _ => false end.
(** certvalidator: a path, everybody on it (except the root) valid at the moment, and the
    extended key usages of the end entity. *)
Definition path_error {A} (m : string) : res A := raise (ExtException "PathValidationError") m.
Definition run_validate (now : Z) (roots : list cert) (moment : option datetime) (o : vopts) (c : cert)
  (inter : list cert) (ku eku : list string) (optional : bool) : res (list Z) :=
  let t := match moment with Some t => t | None => Aware now end in
  match find_path 8 roots inter c with
  | None => path_error "no path"
  | Some p =>
      if negb (forallb (fun x => earlier (c_valid_from x) t && earlier t (c_valid_to x)) (tl p)) then path_error "expired"
      else if negb (match c_eku c with
                    | None => optional
                    | Some l => forallb (fun u => str_mem u l) eku
                    end) then path_error "usage"
      else Ok (map c_id p)
  end.

Definition run_env (now : Z) : env :=
  mkEnv run_hash (fun k => Ok (k_alg k)) run_rsa_verify
    (fun _ _ _ _ => raise NotImplementedError "dsa") (fun _ _ _ _ => raise NotImplementedError "ec")
    now (fun _ moment _ _ _ => match moment with Some (Naive _) => raise ValueError "moment is a naive datetime object" | _ => Ok tt end)
    (run_validate now)
    (fun n => str_mem n ["md5"; "sha1"; "sha224"; "sha256"; "sha384"; "sha512"]).
