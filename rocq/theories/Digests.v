(* SHA-256 (FIPS 180-4) and CRC-32C (RFC 3720), to run the repository's own
   tests on the model (Vectors.v).  Nothing here is code of /repo: the digests
   come from pycryptodome/cryptography (crypto/RsaKey.py, core/Packet.py) and
   from the crc32c package (crypto/Crc32c.py), which the theorems leave
   arbitrary. *)
From Coq Require Import ZArith List Bool.
From Verif Require Import Py.
Import ListNotations.
Open Scope Z_scope.

Definition w32 (x : Z) : Z := Z.land x 0xFFFFFFFF.
Definition rotr (n x : Z) : Z := w32 (Z.lor (Z.shiftr x n) (Z.shiftl x (32 - n))).
Definition sha_k : list Z := [
  0x428a2f98; 0x71374491; 0xb5c0fbcf; 0xe9b5dba5; 0x3956c25b; 0x59f111f1; 0x923f82a4; 0xab1c5ed5;
  0xd807aa98; 0x12835b01; 0x243185be; 0x550c7dc3; 0x72be5d74; 0x80deb1fe; 0x9bdc06a7; 0xc19bf174;
  0xe49b69c1; 0xefbe4786; 0x0fc19dc6; 0x240ca1cc; 0x2de92c6f; 0x4a7484aa; 0x5cb0a9dc; 0x76f988da;
  0x983e5152; 0xa831c66d; 0xb00327c8; 0xbf597fc7; 0xc6e00bf3; 0xd5a79147; 0x06ca6351; 0x14292967;
  0x27b70a85; 0x2e1b2138; 0x4d2c6dfc; 0x53380d13; 0x650a7354; 0x766a0abb; 0x81c2c92e; 0x92722c85;
  0xa2bfe8a1; 0xa81a664b; 0xc24b8b70; 0xc76c51a3; 0xd192e819; 0xd6990624; 0xf40e3585; 0x106aa070;
  0x19a4c116; 0x1e376c08; 0x2748774c; 0x34b0bcb5; 0x391c0cb3; 0x4ed8aa4a; 0x5b9cca4f; 0x682e6ff3;
  0x748f82ee; 0x78a5636f; 0x84c87814; 0x8cc70208; 0x90befffa; 0xa4506ceb; 0xbef9a3f7; 0xc67178f2].
Definition sha_iv : list Z :=
  [0x6a09e667; 0xbb67ae85; 0x3c6ef372; 0xa54ff53a; 0x510e527f; 0x9b05688c; 0x1f83d9ab; 0x5be0cd19].
(* the schedule, newest word first *)
Fixpoint sha_sched (n : nat) (w : list Z) : list Z :=
  match n with
  | O => w
  | S n =>
    let w15 := nth 14 w 0 in let w2 := nth 1 w 0 in
    let s0 := Z.lxor (Z.lxor (rotr 7 w15) (rotr 18 w15)) (Z.shiftr w15 3) in
    let s1 := Z.lxor (Z.lxor (rotr 17 w2) (rotr 19 w2)) (Z.shiftr w2 10) in
    sha_sched n (w32 (nth 15 w 0 + s0 + nth 6 w 0 + s1) :: w)
  end.
Definition sha_round (h : list Z) (kw : Z * Z) : list Z :=
  match h with
  | [a; b; c; d; e; f; g; i] =>
    let s1 := Z.lxor (Z.lxor (rotr 6 e) (rotr 11 e)) (rotr 25 e) in
    let ch := Z.lxor (Z.land e f) (Z.land (Z.lxor e 0xFFFFFFFF) g) in
    let t1 := i + s1 + ch + fst kw + snd kw in
    let s0 := Z.lxor (Z.lxor (rotr 2 a) (rotr 13 a)) (rotr 22 a) in
    let mj := Z.lxor (Z.lxor (Z.land a b) (Z.land a c)) (Z.land b c) in
    [w32 (t1 + s0 + mj); a; b; c; w32 (d + t1); e; f; g]
  | _ => h
  end.
Definition sha_block (h w : list Z) : list Z :=
  let ws := rev (sha_sched 48 (rev w)) in
  map (fun p => w32 (fst p + snd p)) (combine h (fold_left sha_round (combine sha_k ws) h)).
Fixpoint words (l : bytes) : list Z :=
  match l with
  | a :: b :: c :: d :: r => (Z.shiftl a 24 + Z.shiftl b 16 + Z.shiftl c 8 + d) :: words r
  | _ => []
  end.
Fixpoint sha_blocks (n : nat) (h w : list Z) : list Z :=
  match n with
  | O => h
  | S n => sha_blocks n (sha_block h (firstn 16 w)) (skipn 16 w)
  end.
Definition be (n : nat) (x : Z) : bytes :=
  map (fun i => Z.land (Z.shiftr x (8 * Z.of_nat i)) 255) (rev (seq 0 n)).
Definition sha256 (b : bytes) : bytes :=
  let len := Z.of_nat (length b) in
  let p := b ++ 0x80 :: repeat 0 (Z.to_nat ((55 - len) mod 64)) ++ be 8 (8 * len) in
  concat (map (be 4) (sha_blocks (Nat.div (length p) 64) sha_iv (words p))).

Fixpoint crc_bits (n : nat) (c : Z) : Z :=
  match n with
  | O => c
  | S n => crc_bits n (if Z.odd c then Z.lxor (Z.shiftr c 1) 0x82F63B78 else Z.shiftr c 1)
  end.
Definition crc32c (b : bytes) (c0 : Z) : Z :=
  Z.lxor (fold_left (fun c x => crc_bits 8 (Z.lxor c x)) b (Z.lxor c0 0xFFFFFFFF)) 0xFFFFFFFF.
