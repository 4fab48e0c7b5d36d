(** MD5, SHA-1, SHA-256 and SHA-512 (RFC 1321, FIPS 180-4), to run the model on the test
    vectors of the repository.  They stand for hashlib in the examples; no theorem depends
    on them.  No proofs in this file. *)
From Coq Require Import NArith List String Ascii.
From Coq.Strings Require Import Byte.
Import ListNotations.
Local Open Scope N_scope.

Definition bytesN := list byte.

Section Word.
  Variable w : N.               (* word size in bits *)
  Let mask := N.ones w.
  Definition wadd (a b : N) : N := N.land (a + b) mask.
  Definition wnot (a : N) : N := N.lxor a mask.
  Definition wshl (a k : N) : N := N.land (N.shiftl a k) mask.
  Definition wrotl (a k : N) : N := N.lor (wshl a k) (N.shiftr a (w - k)).
  Definition wrotr (a k : N) : N := wrotl a (w - k).
End Word.

Definition N_of_byte (b : byte) : N := Byte.to_N b.
Definition byte_of_N (n : N) : byte := match Byte.of_N n with Some b => b | None => x00 end.

Fixpoint be_word (l : list byte) (acc : N) : N :=
  match l with [] => acc | b :: l' => be_word l' (acc * 256 + N_of_byte b) end.
Definition le_word (l : list byte) : N := be_word (rev l) 0.

Fixpoint be_octets (n : nat) (v : N) (acc : list byte) : list byte :=
  match n with
  | O => acc
  | S n' => be_octets n' (N.shiftr v 8) (byte_of_N (N.land v 255) :: acc)
  end.
Definition le_octets (n : nat) (v : N) : list byte := rev (be_octets n v []).

Fixpoint take_rev (n : nat) (l acc : list byte) : list byte * list byte :=
  match n, l with
  | S n', b :: l' => take_rev n' l' (b :: acc)
  | _, _ => (acc, l)
  end.

(** Blocks of [n] octets. *)
Fixpoint blocks (fuel : nat) (n : nat) (l : list byte) : list (list byte) :=
  match fuel, l with
  | O, _ => []
  | _, [] => []
  | S fuel', _ => let (h, t) := take_rev n l [] in rev_append h [] :: blocks fuel' n t
  end.

Fixpoint words (of : list byte -> N) (n : nat) (fuel : nat) (l : list byte) : list N :=
  match fuel, l with
  | O, _ => []
  | _, [] => []
  | S fuel', _ => let (h, t) := take_rev n l [] in of (rev_append h []) :: words of n fuel' t
  end.

(** Padding: one bit, zeros, and the length in bits. *)
Definition pad (block lenlen : nat) (le : bool) (l : list byte) : list byte :=
  let n := N.of_nat (List.length l) in
  let b := N.of_nat block in
  let z := (2 * b - (n mod b) - 1 - N.of_nat lenlen) mod b in
  let bits := 8 * n in
  l ++ [x80] ++ repeat x00 (N.to_nat z)
    ++ (if le then le_octets lenlen bits else be_octets lenlen bits []).

Definition nthN (l : list N) (i : nat) : N := nth i l 0.

(** ** SHA-2 *)
Section Sha2.
  Variables (w : N) (K : list N) (s0a s0b s0c s1a s1b s1c : N) (S0a S0b S0c S1a S1b S1c : N).
  Let rr := wrotr w.
  Let add := wadd w.
  Definition sig (a b c x : N) := N.lxor (N.lxor (rr x a) (rr x b)) (N.shiftr x c).
  Definition Sig (a b c x : N) := N.lxor (N.lxor (rr x a) (rr x b)) (rr x c).
  (** The message schedule, latest word first. *)
  Fixpoint sched (n : nat) (l : list N) : list N :=
    match n with
    | O => l
    | S n' =>
        sched n'
          (add (add (sig s1a s1b s1c (nthN l 1)) (nthN l 6))
               (add (sig s0a s0b s0c (nthN l 14)) (nthN l 15)) :: l)
    end.
  Fixpoint rounds (kw : list (N * N)) (a b c d e f g h : N) : list N :=
    match kw with
    | [] => [a; b; c; d; e; f; g; h]
    | (k, x) :: kw' =>
        let ch := N.lxor (N.land e f) (N.land (wnot w e) g) in
        let t1 := add (add (add (add h (Sig S1a S1b S1c e)) ch) k) x in
        let maj := N.lxor (N.lxor (N.land a b) (N.land a c)) (N.land b c) in
        let t2 := add (Sig S0a S0b S0c a) maj in
        rounds kw' (add t1 t2) a b c (add d t1) e f g
    end.
  Definition compress (h : list N) (blk : list byte) : list N :=
    let ws := words (fun l => be_word l 0) (N.to_nat (w / 8)) 16 blk in
    let sch := rev_append (sched (List.length K - 16) (rev_append ws [])) [] in
    let r := rounds (combine K sch) (nthN h 0) (nthN h 1) (nthN h 2) (nthN h 3)
                    (nthN h 4) (nthN h 5) (nthN h 6) (nthN h 7) in
    map (fun p => add (fst p) (snd p)) (combine h r).
  Definition sha2 (iv : list N) (l : list byte) : list byte :=
    let blk := N.to_nat (2 * w) in
    let p := pad blk (N.to_nat (w / 4)) false l in
    let h := fold_left compress (blocks (S (List.length l)) blk p) iv in
    flat_map (fun x => be_octets (N.to_nat (w / 8)) x []) h.
End Sha2.

Definition k256 : list N :=
  [0x428a2f98; 0x71374491; 0xb5c0fbcf; 0xe9b5dba5; 0x3956c25b; 0x59f111f1;
   0x923f82a4; 0xab1c5ed5; 0xd807aa98; 0x12835b01; 0x243185be; 0x550c7dc3;
   0x72be5d74; 0x80deb1fe; 0x9bdc06a7; 0xc19bf174; 0xe49b69c1; 0xefbe4786;
   0xfc19dc6; 0x240ca1cc; 0x2de92c6f; 0x4a7484aa; 0x5cb0a9dc; 0x76f988da;
   0x983e5152; 0xa831c66d; 0xb00327c8; 0xbf597fc7; 0xc6e00bf3; 0xd5a79147;
   0x6ca6351; 0x14292967; 0x27b70a85; 0x2e1b2138; 0x4d2c6dfc; 0x53380d13;
   0x650a7354; 0x766a0abb; 0x81c2c92e; 0x92722c85; 0xa2bfe8a1; 0xa81a664b;
   0xc24b8b70; 0xc76c51a3; 0xd192e819; 0xd6990624; 0xf40e3585; 0x106aa070;
   0x19a4c116; 0x1e376c08; 0x2748774c; 0x34b0bcb5; 0x391c0cb3; 0x4ed8aa4a;
   0x5b9cca4f; 0x682e6ff3; 0x748f82ee; 0x78a5636f; 0x84c87814; 0x8cc70208;
   0x90befffa; 0xa4506ceb; 0xbef9a3f7; 0xc67178f2].
Definition iv256 : list N :=
  [0x6a09e667; 0xbb67ae85; 0x3c6ef372; 0xa54ff53a; 0x510e527f; 0x9b05688c;
   0x1f83d9ab; 0x5be0cd19].
Definition k512 : list N :=
  [0x428a2f98d728ae22; 0x7137449123ef65cd; 0xb5c0fbcfec4d3b2f;
   0xe9b5dba58189dbbc; 0x3956c25bf348b538; 0x59f111f1b605d019;
   0x923f82a4af194f9b; 0xab1c5ed5da6d8118; 0xd807aa98a3030242;
   0x12835b0145706fbe; 0x243185be4ee4b28c; 0x550c7dc3d5ffb4e2;
   0x72be5d74f27b896f; 0x80deb1fe3b1696b1; 0x9bdc06a725c71235;
   0xc19bf174cf692694; 0xe49b69c19ef14ad2; 0xefbe4786384f25e3;
   0xfc19dc68b8cd5b5; 0x240ca1cc77ac9c65; 0x2de92c6f592b0275;
   0x4a7484aa6ea6e483; 0x5cb0a9dcbd41fbd4; 0x76f988da831153b5;
   0x983e5152ee66dfab; 0xa831c66d2db43210; 0xb00327c898fb213f;
   0xbf597fc7beef0ee4; 0xc6e00bf33da88fc2; 0xd5a79147930aa725;
   0x6ca6351e003826f; 0x142929670a0e6e70; 0x27b70a8546d22ffc;
   0x2e1b21385c26c926; 0x4d2c6dfc5ac42aed; 0x53380d139d95b3df;
   0x650a73548baf63de; 0x766a0abb3c77b2a8; 0x81c2c92e47edaee6;
   0x92722c851482353b; 0xa2bfe8a14cf10364; 0xa81a664bbc423001;
   0xc24b8b70d0f89791; 0xc76c51a30654be30; 0xd192e819d6ef5218;
   0xd69906245565a910; 0xf40e35855771202a; 0x106aa07032bbd1b8;
   0x19a4c116b8d2d0c8; 0x1e376c085141ab53; 0x2748774cdf8eeb99;
   0x34b0bcb5e19b48a8; 0x391c0cb3c5c95a63; 0x4ed8aa4ae3418acb;
   0x5b9cca4f7763e373; 0x682e6ff3d6b2b8a3; 0x748f82ee5defb2fc;
   0x78a5636f43172f60; 0x84c87814a1f0ab72; 0x8cc702081a6439ec;
   0x90befffa23631e28; 0xa4506cebde82bde9; 0xbef9a3f7b2c67915;
   0xc67178f2e372532b; 0xca273eceea26619c; 0xd186b8c721c0c207;
   0xeada7dd6cde0eb1e; 0xf57d4f7fee6ed178; 0x6f067aa72176fba;
   0xa637dc5a2c898a6; 0x113f9804bef90dae; 0x1b710b35131c471b;
   0x28db77f523047d84; 0x32caab7b40c72493; 0x3c9ebe0a15c9bebc;
   0x431d67c49c100d4c; 0x4cc5d4becb3e42b6; 0x597f299cfc657e2a;
   0x5fcb6fab3ad6faec; 0x6c44198c4a475817].
Definition iv512 : list N :=
  [0x6a09e667f3bcc908; 0xbb67ae8584caa73b; 0x3c6ef372fe94f82b;
   0xa54ff53a5f1d36f1; 0x510e527fade682d1; 0x9b05688c2b3e6c1f;
   0x1f83d9abfb41bd6b; 0x5be0cd19137e2179].

Definition sha256 : list byte -> list byte := sha2 32 k256 7 18 3 17 19 10 2 13 22 6 11 25 iv256.
Definition sha512 : list byte -> list byte := sha2 64 k512 1 8 7 19 61 6 28 34 39 14 18 41 iv512.

(** ** SHA-1 *)
Fixpoint sched1 (n : nat) (l : list N) : list N :=
  match n with
  | O => l
  | S n' =>
      sched1 n' (wrotl 32 (N.lxor (N.lxor (nthN l 2) (nthN l 7)) (N.lxor (nthN l 13) (nthN l 15))) 1 :: l)
  end.
Definition f1 (i : nat) (b c d : N) : N * N :=
  if Nat.ltb i 20 then (N.lor (N.land b c) (N.land (wnot 32 b) d), 0x5a827999)
  else if Nat.ltb i 40 then (N.lxor (N.lxor b c) d, 0x6ed9eba1)
  else if Nat.ltb i 60 then (N.lor (N.lor (N.land b c) (N.land b d)) (N.land c d), 0x8f1bbcdc)
  else (N.lxor (N.lxor b c) d, 0xca62c1d6).
Fixpoint rounds1 (i : nat) (ws : list N) (a b c d e : N) : list N :=
  match ws with
  | [] => [a; b; c; d; e]
  | x :: ws' =>
      let (f, k) := f1 i b c d in
      let t := wadd 32 (wadd 32 (wadd 32 (wadd 32 (wrotl 32 a 5) f) e) k) x in
      rounds1 (S i) ws' t a (wrotl 32 b 30) c d
  end.
Definition compress1 (h : list N) (blk : list byte) : list N :=
  let ws := words (fun l => be_word l 0) 4 16 blk in
  let r := rounds1 0 (rev_append (sched1 64 (rev_append ws [])) [])
                   (nthN h 0) (nthN h 1) (nthN h 2) (nthN h 3) (nthN h 4) in
  map (fun p => wadd 32 (fst p) (snd p)) (combine h r).
Definition sha1 (l : list byte) : list byte :=
  flat_map (fun x => be_octets 4 x [])
    (fold_left compress1 (blocks (S (List.length l)) 64 (pad 64 8 false l))
       [0x67452301; 0xefcdab89; 0x98badcfe; 0x10325476; 0xc3d2e1f0]).

(** ** MD5 *)
Definition k5 : list N :=
  [0xd76aa478; 0xe8c7b756; 0x242070db; 0xc1bdceee; 0xf57c0faf; 0x4787c62a;
   0xa8304613; 0xfd469501; 0x698098d8; 0x8b44f7af; 0xffff5bb1; 0x895cd7be;
   0x6b901122; 0xfd987193; 0xa679438e; 0x49b40821; 0xf61e2562; 0xc040b340;
   0x265e5a51; 0xe9b6c7aa; 0xd62f105d; 0x2441453; 0xd8a1e681; 0xe7d3fbc8;
   0x21e1cde6; 0xc33707d6; 0xf4d50d87; 0x455a14ed; 0xa9e3e905; 0xfcefa3f8;
   0x676f02d9; 0x8d2a4c8a; 0xfffa3942; 0x8771f681; 0x6d9d6122; 0xfde5380c;
   0xa4beea44; 0x4bdecfa9; 0xf6bb4b60; 0xbebfbc70; 0x289b7ec6; 0xeaa127fa;
   0xd4ef3085; 0x4881d05; 0xd9d4d039; 0xe6db99e5; 0x1fa27cf8; 0xc4ac5665;
   0xf4292244; 0x432aff97; 0xab9423a7; 0xfc93a039; 0x655b59c3; 0x8f0ccc92;
   0xffeff47d; 0x85845dd1; 0x6fa87e4f; 0xfe2ce6e0; 0xa3014314; 0x4e0811a1;
   0xf7537e82; 0xbd3af235; 0x2ad7d2bb; 0xeb86d391].
Definition r5 (i : nat) : N :=
  nthN (nth (Nat.div i 16) [[7; 12; 17; 22]; [5; 9; 14; 20]; [4; 11; 16; 23]; [6; 10; 15; 21]] [])
       (Nat.modulo i 4).
Definition f5 (i : nat) (b c d : N) : N * nat :=
  match Nat.div i 16 with
  | 0%nat => (N.lor (N.land b c) (N.land (wnot 32 b) d), i)
  | 1%nat => (N.lor (N.land d b) (N.land (wnot 32 d) c), Nat.modulo (5 * i + 1) 16)
  | 2%nat => (N.lxor (N.lxor b c) d, Nat.modulo (3 * i + 5) 16)
  | _ => (N.lxor c (N.lor b (wnot 32 d)), Nat.modulo (7 * i) 16)
  end.
Fixpoint rounds5 (i : nat) (ks ws : list N) (a b c d : N) : list N :=
  match ks with
  | [] => [a; b; c; d]
  | k :: ks' =>
      let (f, g) := f5 i b c d in
      let t := wadd 32 (wadd 32 (wadd 32 a f) k) (nthN ws g) in
      rounds5 (S i) ks' ws d (wadd 32 b (wrotl 32 t (r5 i))) b c
  end.
Definition compress5 (h : list N) (blk : list byte) : list N :=
  let r := rounds5 0 k5 (words le_word 4 16 blk) (nthN h 0) (nthN h 1) (nthN h 2) (nthN h 3) in
  map (fun p => wadd 32 (fst p) (snd p)) (combine h r).
Definition md5 (l : list byte) : list byte :=
  flat_map (le_octets 4)
    (fold_left compress5 (blocks (S (List.length l)) 64 (pad 64 8 true l))
       [0x67452301; 0xefcdab89; 0x98badcfe; 0x10325476]).

