(* Key derivation: crypto/KDF.py, flic/aeadctx/AeadImpl.py:49-72 and
   flic/tlvs/KdfData.py:37-41.  Nothing in the package calls these. *)
From Coq Require Import ZArith List Bool.
From Verif Require Import Py Float Tlv Core Flic Crypto Optimizer Tree Store Traversal Uri Apps.
Import ListNotations.
Open Scope Z_scope.

(* What is passed as kdf_id: a member of HpkeKdfIdentifiers
   (crypto/HpkeKdfIdentifiers.py:17-20) or a number.  The class is an Enum, not
   an IntEnum, so no member equals a number. *)
Inductive kdf_arg := KMember (i : kdfid) | KNumber (n : Z).
(* what is passed as salt *)
Inductive kdf_salt := SaltInt (n : Z) | SaltBytes (b : bytes).

Section Kdf.
(* HKDF(algorithm, length, salt, info).derive(key) of the cryptography package *)
Variable hkdf : kdfid -> Z -> option kdf_salt -> option bytes -> bytes -> res bytes.

(* crypto/KDF.py:25-51 derive, 53-61 _derive *)
Definition kdf_derive (id : kdf_arg) (key : bytes) (len : Z) (info : option bytes) (salt : option kdf_salt) : res bytes :=
  match id with
  | KMember i => hkdf i len salt info key
  | KNumber _ => Err ValueError
  end.
(* flic/aeadctx/AeadImpl.py:54-57: b'FLIC' and the wire formats of the key
   number, the mode and the KdfInfo *)
Definition fixed_info (num md : Z) (info : bytes) : res bytes :=
  a <- int_tlv T_KEYNUM num ;;
  b <- int_tlv T_AEADMode md ;;
  c <- octet_tlv T_KDF_INFO info ;;
  Ok ([70; 76; 73; 67] ++ tlv_wire a ++ tlv_wire b ++ tlv_wire c).
(* flic/aeadctx/AeadImpl.py:49-72.  KdfAlg.value() is a number
   (flic/tlvs/KdfAlg.py:37-40), and the salt is passed as an integer. *)
Definition derive_key (p : aparams) (k : aeadkey) : res aeadkey :=
  match ap_kdf p with
  | None => Ok k
  | Some d =>
    match k_info d with
    | None => Err AssertionError
    | Some i =>
      md <- mode_of_key k ;;
      info <- fixed_info (ap_num p) md i ;;
      b <- kdf_derive (KNumber (k_alg d)) (ak_key k) ((ak_bits k + 7) / 8) (Some info) (option_map SaltInt (ap_kdf_salt p)) ;;
      aeadkey_make (ak_alg k) b
    end
  end.
End Kdf.

(* flic/tlvs/KdfData.py:37-41 copy_with_name: name.serialize() is the TLV *)
Definition kdf_with_name (d : kdf) (n : name) : res kdf :=
  t <- name_tlv n ;;
  let d' := mkKdf (k_alg d) (Some (tlv_wire t)) in
  _ <- kdf_tlv d' ;; Ok d'.
