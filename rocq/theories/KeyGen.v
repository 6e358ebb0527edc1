(* Model of the making of random keys, nonces and content keys:
   crypto/AeadKey.py:59-78, 146-158, 169-181 and
   flic/RsaOaepCtx/RsaOaepEncryptor.py:37-59.

   The random bytes come from outside: [rnd k n] is what the k-th draw returns
   when asked for n bytes.  Every definition takes it, and the number of the
   next draw. *)
From Coq Require Import ZArith List Bool.
From Verif Require Import Py Tlv Float Core Flic Crypto.
Import ListNotations.
Open Scope Z_scope.

(* os.urandom(n): a negative size is a ValueError *)
Definition urandom (rnd : nat -> Z -> bytes) (k : nat) (n : Z) : res bytes :=
  _ <- guard (0 <=? n) ValueError ;; Ok (rnd k n).

(* crypto/AeadKey.py:68-78; bits // 8 rounds down.  Simplified: bits is an
   integer *)
Definition key_nonce (rnd : nat -> Z -> bytes) (k : nat) (bits : Z) : res bytes :=
  b <- urandom rnd k (bits / 8) ;; array_B b.
(* crypto/AeadKey.py:69: the default *)
Definition NONCE_BITS : Z := 96.

(* AESGCM.generate_key, AESCCM.generate_key of the cryptography package: 128,
   192 or 256 bits, else ValueError *)
Definition lib_generate (rnd : nat -> Z -> bytes) (k : nat) (bits : Z) : res bytes :=
  _ <- guard ((bits =? 128) || (bits =? 192) || (bits =? 256)) ValueError ;;
  urandom rnd k (bits / 8).
(* crypto/AeadKey.py:146-158, 169-181: the same for both classes.  Simplified:
   bits is an integer *)
Definition key_generate (rnd : nat -> Z -> bytes) (k : nat) (a : aalg) (bits : Z) : res aeadkey :=
  _ <- guard ((bits =? 128) || (bits =? 256)) ValueError ;;
  b <- lib_generate rnd k bits ;;
  aeadkey_make a b.

(* flic/aeadctx/AeadImpl.py:74-79: with a salt the nonce is shorter by the bits
   of the salt *)
Definition impl_nonce (rnd : nat -> Z -> bytes) (k : nat) (p : aparams) : res bytes :=
  match ap_salt p with
  | None => key_nonce rnd k 96
  | Some s => b <- to_bytes4 s ;; key_nonce rnd k (96 - zlen b * 8)
  end.

(* flic/RsaOaepCtx/RsaOaepEncryptor.py:37-59: three draws, then the wrapping of
   the new key; [seed] is the randomness of the RSA-OAEP padding.
   int.from_bytes and KeyNumber of bytes (flic/tlvs/KeyNumber.py:31-36) read a
   big-endian number. *)
Definition new_content_key (P : prims) (rnd : nat -> Z -> bytes) (k : nat) (seed : bytes)
    (w : rsakey P) (d : option kdf) : res oimpl :=
  key <- key_generate rnd k GCM 256 ;;
  sb <- urandom rnd (k + 1) 4 ;;
  nb <- urandom rnd (k + 2) 4 ;;
  p <- ap_make (mkAP key (array_to_number nb) (Some (array_to_number sb)) d None) ;;
  wr <- wrapper_create P w seed p ;;
  Ok (mkOI (Some wr) p).
