(* Model of /repo/ccnpy/crypto (keys, signers, verifiers, key store),
   core/PacketValidator.py, flic/aeadctx, flic/RsaOaepCtx and
   flic/tree/DecryptorCache.py.

   The cryptographic primitives come from outside the repository (hashlib, the
   crc32c and cryptography packages).  They are the fields of a record [prims]
   and every definition takes such a record, so every theorem holds for all
   primitives; what a theorem needs of them (e.g. that decryption inverts
   encryption) is a hypothesis of that theorem. *)
From Coq Require Import ZArith List Bool.
From Verif Require Import Py Tlv Float Core Flic.
Import ListNotations.
Open Scope Z_scope.

(* crypto/AeadKey.py:138-140, 161-163: the two AEAD algorithms *)
Inductive aalg := GCM | CCM.
Definition aalg_eqb (a b : aalg) : bool :=
  match a, b with GCM, GCM | CCM, CCM => true | _, _ => false end.

(* External primitives.
   pr_sha: hashlib.sha256 / hashes.SHA256.
   pr_crc: crc32c(buffer, running checksum).
   pr_pub, pr_der, pr_bits: public_key(), DER encoding, key_size.
   pr_sign: private_key.sign(digest, PKCS1v15, Prehashed), may raise.
   pr_verify key signature digest: public_key.verify; InvalidSignature = false.
   pr_oaep_enc key label seed plaintext: public_key.encrypt with OAEP padding;
     the seed is the randomness it draws.
   pr_oaep_dec key label ciphertext: private_key.decrypt.
   pr_seal alg key iv plaintext aad, pr_open alg key iv ciphertext aad:
     AESGCM/AESCCM encrypt and decrypt; Ok None is InvalidTag, Err e any other
     exception. *)
Record prims := mkPrims {
  pr_sha : bytes -> bytes;
  pr_crc : bytes -> Z -> Z;
  pr_SK : Type;
  pr_PK : Type;
  pr_pub : pr_SK -> pr_PK;
  pr_der : pr_PK -> bytes;
  pr_bits : pr_PK -> Z;
  pr_sign : pr_SK -> bytes -> res bytes;
  pr_verify : pr_PK -> bytes -> bytes -> bool;
  pr_oaep_enc : pr_PK -> bytes -> bytes -> bytes -> res bytes;
  pr_oaep_dec : pr_SK -> bytes -> bytes -> res bytes;
  pr_seal : aalg -> bytes -> bytes -> bytes -> bytes -> res bytes;
  pr_open : aalg -> bytes -> bytes -> bytes -> bytes -> res (option bytes)
}.

Section Prims.
Context (P : prims).

(* ---------------- RsaKey ---------------- *)

(* crypto/RsaKey.py:40-81: a key loaded from a private or a public PEM; the
   public key is always present.  Pem.v has the loading. *)
Inductive rsakey := RPriv (sk : pr_SK P) | RPub (pk : pr_PK P).
(* crypto/RsaKey.py:76, 93-98 *)
Definition rsa_pub (k : rsakey) : pr_PK P :=
  match k with RPriv sk => pr_pub P sk | RPub pk => pk end.
(* crypto/RsaKey.py:86-91 *)
Definition has_private (k : rsakey) : bool :=
  match k with RPriv _ => true | RPub _ => false end.
(* crypto/RsaKey.py:284-294 *)
Definition rsa_keyid (k : rsakey) : res hashv :=
  let h := mkHash T_SHA_256 (pr_sha P (pr_der P (rsa_pub k))) in
  _ <- hashv_tlv h ;; Ok h.
(* crypto/RsaKey.py:156-177: hashing several buffers in sequence is hashing
   their concatenation *)
Definition rsa_sign (k : rsakey) (buffers : list bytes) : res bytes :=
  match k with
  | RPub _ => Err ValueError
  | RPriv sk => s <- pr_sign P sk (pr_sha P (concat buffers)) ;; array_B s
  end.
(* crypto/RsaKey.py:179-205 *)
Definition rsa_verify (k : rsakey) (buffers : list bytes) (signature : bytes) : bool :=
  pr_verify P (rsa_pub k) signature (pr_sha P (concat buffers)).
(* crypto/RsaKey.py:207-232: math.ceil(key_size / 8) - 66 *)
Definition rsa_oaep_encrypt (k : rsakey) (seed plaintext label : bytes) : res bytes :=
  let max_size := (pr_bits P (rsa_pub k) + 7) / 8 - 66 in
  _ <- guard (zlen plaintext <=? max_size) ValueError ;;
  c <- pr_oaep_enc P (rsa_pub k) label seed plaintext ;; array_B c.
(* crypto/RsaKey.py:234-253; without a private key None.decrypt *)
Definition rsa_oaep_decrypt (k : rsakey) (ciphertext label : bytes) : res bytes :=
  match k with
  | RPub _ => Err AttributeError
  | RPriv sk => p <- pr_oaep_dec P sk label ciphertext ;; array_B p
  end.

(* ---------------- Signers ---------------- *)

(* crypto/Crc32c.py:25-60, crypto/RsaSha256.py:25-72.  RsaSha256Signer refuses
   a key without private part (RuntimeError), so the signer holds one. *)
Inductive signer := SCrc | SRsa (sk : pr_SK P).
(* crypto/Crc32c.py:37-43, 86-88: the checksum of several buffers *)
Definition crc_of (buffers : list bytes) : Z :=
  fold_left (fun c b => pr_crc P b c) buffers 0.
(* crypto/Crc32c.py:37-43, crypto/RsaSha256.py:39-42: the content of the
   ValidationPayload *)
Definition signer_sign (s : signer) (buffers : list bytes) : res bytes :=
  b <- match s with
       | SCrc => uint32_to_array (crc_of buffers)
       | SRsa sk => rsa_sign (RPriv sk) buffers
       end ;;
  _ <- vpl_tlv b ;; Ok b.
(* crypto/Crc32c.py:48-60, crypto/RsaSha256.py:47-72 with the arguments
   include_public_key and key_link; [now] is the signature time *)
Definition signer_alg (s : signer) (incl_pk : bool) (kl : option link) (now : fl)
  : res valg :=
  match s with
  | SCrc =>
    _ <- guard (negb incl_pk) AssertionError ;;
    _ <- guard (is_none kl) AssertionError ;;
    _ <- valg_tlv VCrc32c ;; Ok VCrc32c
  | SRsa sk =>
    _ <- ts_tlv T_SIGTIME now ;;
    kid <- rsa_keyid (RPriv sk) ;;
    let v := VRsa kid (if incl_pk then Some (pr_der P (pr_pub P sk)) else None) kl now in
    _ <- valg_tlv v ;; Ok v
  end.
(* flic/ManifestFactory.py:101-104, flic/tree/TreeIO.py:211-214: how the
   package signs a content object *)
Definition sign_content (s : signer) (now : fl) (c : content) : res packet :=
  a <- signer_alg s false None now ;;
  tc <- co_tlv c ;;
  ta <- valg_tlv a ;;
  v <- signer_sign s [tlv_wire tc; tlv_wire ta] ;;
  create_signed_content_object c a v.

(* ---------------- AEAD keys and parameters ---------------- *)

(* crypto/AeadKey.py:36-46, 138-140, 161-163: the key length is checked by the
   AESGCM / AESCCM constructors *)
Record aeadkey := mkAK { ak_alg : aalg; ak_key : bytes }.
Definition aeadkey_make (a : aalg) (k : bytes) : res aeadkey :=
  _ <- guard ((zlen k =? 16) || (zlen k =? 24) || (zlen k =? 32)) ValueError ;;
  Ok (mkAK a k).
(* crypto/AeadKey.py:43, 48-49 *)
Definition ak_bits (k : aeadkey) : Z := zlen (ak_key k) * 8.

(* crypto/AeadKey.py:80-100; output[:-16] and output[len(ciphertext):] *)
Definition aead_seal (k : aeadkey) (iv plaintext aad : bytes) : res (bytes * bytes) :=
  out <- pr_seal P (ak_alg k) (ak_key k) iv plaintext aad ;;
  let ct := ztake (zlen out - 16) out in
  c <- array_B ct ;;
  t <- array_B (zskip (zlen ct) out) ;;
  Ok (c, t).
(* crypto/AeadKey.py:102-133 *)
Definition aead_open (k : aeadkey) (iv ciphertext aad tag : bytes) : res bytes :=
  r <- pr_open P (ak_alg k) (ak_key k) iv (ciphertext ++ tag) aad ;;
  match r with
  | Some p => array_B p
  | None => Err DecryptionError
  end.

(* flic/tlvs/AeadMode.py:27-30 *)
Definition MODE_GCM_128 : Z := 1.
Definition MODE_GCM_256 : Z := 2.
Definition MODE_CCM_128 : Z := 3.
Definition MODE_CCM_256 : Z := 4.
(* flic/tlvs/AeadMode.py:64-74; flic/aeadctx/AeadImpl.py:86-108 computes the
   same with the same exception *)
Definition mode_of_key (k : aeadkey) : res Z :=
  match ak_alg k with
  | GCM => if ak_bits k =? 128 then Ok MODE_GCM_128
           else if ak_bits k =? 256 then Ok MODE_GCM_256 else Err ValueError
  | CCM => if ak_bits k =? 128 then Ok MODE_CCM_128
           else if ak_bits k =? 256 then Ok MODE_CCM_256 else Err ValueError
  end.

(* flic/aeadctx/AeadParameters.py:22-37.  Simplified: the key is always
   present.  ap_kdf_salt is stored but never used for encryption. *)
Record aparams := mkAP
  { ap_key : aeadkey; ap_num : Z; ap_salt : option Z; ap_kdf : option kdf; ap_kdf_salt : option Z }.
(* int.to_bytes(4, 'big') *)
Definition to_bytes4 (n : Z) : res bytes :=
  if (0 <=? n) && (n <? 2 ^ 32) then
    Ok [n / 2 ^ 24; n / 2 ^ 16 mod 256; n / 2 ^ 8 mod 256; n mod 256]
  else Err OverflowError.
(* flic/aeadctx/AeadParameters.py:39-48 *)
Definition ap_make (p : aparams) : res aparams :=
  _ <- int_tlv T_KEYNUM (ap_num p) ;;
  _ <- optM to_bytes4 (ap_salt p) ;;
  _ <- optM to_bytes4 (ap_kdf_salt p) ;;
  Ok p.

(* flic/aeadctx/AeadImpl.py:74-79: bytes of the random nonce *)
Definition nonce_len (p : aparams) : Z :=
  match ap_salt p with None => 12 | Some _ => 8 end.
(* flic/aeadctx/AeadImpl.py:81-84 *)
Definition iv_of (p : aparams) (nonce : bytes) : res bytes :=
  match ap_salt p with
  | None => Ok nonce
  | Some s => b <- to_bytes4 s ;; Ok (b ++ nonce)
  end.
(* flic/aeadctx/AeadImpl.py:102-113.  The key derivation function of lines
   49-69 is never called: the KDF data only travels in the context. *)
Definition create_aead_data (p : aparams) (nonce : bytes) : res aead :=
  m <- mode_of_key (ap_key p) ;;
  let a := mkAead (ap_num p) nonce (Some m) (ap_kdf p) in
  _ <- aead_wire a ;; Ok a.

(* flic/aeadctx/AeadImpl.py:131-150: (encrypted node, auth tag) *)
Definition encrypt_with_ctx (p : aparams) (n : node) (c : secctx) : res (bytes * bytes) :=
  iv <- iv_of p (a_nonce (ctx_aead c)) ;;
  tn <- node_tlv n ;;
  tc <- ctx_tlv c ;;
  '(ct, tag) <- aead_seal (ap_key p) iv (t_val tn) (tlv_wire tc) ;;
  _ <- octet_tlv T_ENCRYPTED_NODE ct ;;
  _ <- octet_tlv T_AUTH_TAG tag ;;
  Ok (ct, tag).
(* flic/aeadctx/AeadImpl.py:115-129; [nonce] is what os.urandom returns *)
Definition aead_encrypt (p : aparams) (nonce : bytes) (n : node)
  : res (secctx * bytes * bytes) :=
  a <- create_aead_data p nonce ;;
  let c := CAead a in
  _ <- ctx_tlv c ;;
  '(ct, tag) <- encrypt_with_ctx p n c ;;
  Ok (c, ct, tag).
(* flic/aeadctx/AeadImpl.py:153-162 *)
Definition manifest_of (r : secctx * bytes * bytes) : res manifest :=
  let '(c, ct, tag) := r in
  let m := mkMan (Some c) (MEnc ct) (Some tag) in
  _ <- man_wire m ;; Ok m.
Definition aead_create_manifest (p : aparams) (nonce : bytes) (n : node) : res manifest :=
  r <- aead_encrypt p nonce n ;; manifest_of r.

(* flic/aeadctx/AeadImpl.py:190-195, flic/RsaOaepCtx/RsaOaepImpl.py:173-179;
   a context without mode has None.is_aes_gcm_128() *)
Definition check_mode (p : aparams) (c : secctx) : res unit :=
  match a_mode (ctx_aead c) with
  | None => Err AttributeError
  | Some m =>
    match ak_alg (ap_key p) with
    | GCM => guard ((m =? MODE_GCM_128) || (m =? MODE_GCM_256)) DecryptionError
    | CCM => guard ((m =? MODE_CCM_128) || (m =? MODE_CCM_256)) DecryptionError
    end
  end.
(* flic/aeadctx/AeadImpl.py:186-204, flic/RsaOaepCtx/RsaOaepImpl.py:169-188 *)
Definition decrypt_node (p : aparams) (c : secctx) (ct tag : bytes) : res node :=
  _ <- guard (a_keynum (ctx_aead c) =? ap_num p) ValueError ;;
  _ <- check_mode p c ;;
  iv <- iv_of p (a_nonce (ctx_aead c)) ;;
  tc <- ctx_tlv c ;;
  pt <- aead_open (ap_key p) iv ct (tlv_wire tc) tag ;;
  tn <- tlv_make T_NODE pt ;;
  node_parse tn.
(* flic/aeadctx/AeadImpl.py:206-240 (is_mine = isinstance AeadCtx),
   flic/RsaOaepCtx/RsaOaepImpl.py:190-226 (is_mine = isinstance RsaOaepCtx) *)
Definition decrypt_manifest_with (is_mine : secctx -> bool) (p : aparams) (m : manifest)
  : res manifest :=
  match m_node m with
  | MNode _ => Err TypeError
  | MEnc ct =>
    match m_ctx m with
    | None => Err ValueError
    | Some c =>
      _ <- guard (is_mine c) TypeError ;;
      match m_tag m with
      | None => Err ValueError
      | Some tag =>
        n <- decrypt_node p c ct tag ;;
        let m' := mkMan None (MNode n) None in
        _ <- man_wire m' ;; Ok m'
      end
    end
  end.
Definition is_aead_ctx (c : secctx) : bool := match c with CAead _ => true | CRsa _ _ => false end.
Definition is_rsa_ctx (c : secctx) : bool := match c with CAead _ => false | CRsa _ _ => true end.
Definition aead_decrypt_manifest (p : aparams) (m : manifest) : res manifest :=
  decrypt_manifest_with is_aead_ctx p m.

(* ---------------- InsecureKeystore ---------------- *)

(* A Python dict as an association list; assignment puts the new binding in
   front of the old ones, which is all that lookups can see. *)
Fixpoint dict_get {K V} (eqb : K -> K -> bool) (k : K) (d : list (K * V)) : option V :=
  match d with
  | [] => None
  | (k', v) :: d' => if eqb k' k then Some v else dict_get eqb k d'
  end.
Definition dict_set {K V} (k : K) (v : V) (d : list (K * V)) : list (K * V) := (k, v) :: d.
(* Dict lookup of a HashValue: HashValue.__hash__ hashes str() of the whole
   wire format (core/HashValue.py:87-89), so values with different algorithm
   fall apart although __eq__ ignores the algorithm.  Simplified: collisions
   of the 64 bit string hash are not modelled. *)
Definition hashv_key_eqb (a b : hashv) : bool :=
  (h_alg a =? h_alg b) && beqb (h_val a) (h_val b).

(* crypto/InsecureKeystore.py:38-41; names are strings *)
Record keystore := mkKS
  { ks_name : list (bytes * rsakey); ks_keyid : list (hashv * rsakey);
    ks_aes : list (Z * aparams) }.
(* crypto/InsecureKeystore.py:38-41 *)
Definition ks_empty : keystore := mkKS [] [] [].
(* crypto/InsecureKeystore.py:43-48 *)
Definition add_rsa_key (ks : keystore) (name : bytes) (k : rsakey) : res keystore :=
  h <- rsa_keyid k ;;
  Ok (mkKS (dict_set name k (ks_name ks)) (dict_set h k (ks_keyid ks)) (ks_aes ks)).
(* crypto/InsecureKeystore.py:50-54 *)
Definition add_aes_key (ks : keystore) (p : aparams) : keystore :=
  mkKS (ks_name ks) (ks_keyid ks) (dict_set (ap_num p) p (ks_aes ks)).
(* crypto/InsecureKeystore.py:56-60 *)
Definition get_aes_key (ks : keystore) (num : Z) : res aparams :=
  match dict_get Z.eqb num (ks_aes ks) with
  | Some p => Ok p
  | None => Err KeyNumberNotFoundError
  end.
(* the argument of get_rsa: a KeyId, a HashValue or a name *)
Inductive rsaquery := QKeyId (h : hashv) | QHash (h : hashv) | QName (n : bytes).
(* crypto/InsecureKeystore.py:62-75 *)
Definition get_rsa (ks : keystore) (q : rsaquery) : res rsakey :=
  match q with
  | QKeyId h | QHash h =>
    match dict_get hashv_key_eqb h (ks_keyid ks) with
    | Some k => Ok k
    | None => Err KeyIdNotFoundError   (* no name equals a HashValue *)
    end
  | QName n =>
    match dict_get beqb n (ks_name ks) with
    | Some k => Ok k
    | None => Err KeyIdNotFoundError
    end
  end.
(* crypto/InsecureKeystore.py:77-85; every RsaKey has a public key *)
Definition get_rsa_pub_key (ks : keystore) (h : hashv) : res rsakey :=
  match dict_get hashv_key_eqb h (ks_keyid ks) with
  | Some k => Ok k
  | None => Err KeyIdNotFoundError
  end.

(* ---------------- PacketValidator ---------------- *)

(* crypto/Crc32c.py:76-91, crypto/RsaSha256.py:86-97.  Simplified: buffers
   are array("B"), as produced by Packet.load (core/Packet.py:131-134); for a
   packet deserialized from a bytes object the CRC comparison array == bytes
   would be False. *)
Definition crc_verify (buffers : list bytes) (payload : option bytes) : res bool :=
  match payload with
  | None => Err ValueError
  | Some v => b <- uint32_to_array (crc_of buffers) ;; _ <- vpl_tlv b ;; Ok (beqb b v)
  end.
Definition rsa_verify_payload (k : rsakey) (buffers : list bytes) (payload : option bytes)
  : res bool :=
  match payload with
  | None => Err ValueError
  | Some v => Ok (rsa_verify k buffers v)
  end.
(* core/PacketValidator.py:28-57 *)
Definition validate_packet (ks : option keystore) (p : packet) : res unit :=
  match p_alg p with
  | None => Ok tt
  | Some VCrc32c =>
    b <- body_wire (p_body p) ;;
    a <- valg_tlv VCrc32c ;;
    r <- crc_verify [b; tlv_wire a] (p_vpl p) ;;
    guard r ValueError
  | Some (VRsa kid pk kl st) =>
    match ks with
    | None => Ok tt
    | Some ks =>
      k <- get_rsa ks (QHash kid) ;;
      b <- body_wire (p_body p) ;;
      a <- valg_tlv (VRsa kid pk kl st) ;;
      r <- rsa_verify_payload k [b; tlv_wire a] (p_vpl p) ;;
      guard r ValueError
    end
  end.

(* ---------------- RSA-OAEP key wrapping ---------------- *)

(* flic/RsaOaepCtx/WrappedKey.py:45 *)
Definition label_prefix : bytes :=
  [70; 76; 73; 67; 32; 82; 83; 65; 45; 79; 65; 69; 80].   (* b'FLIC RSA-OAEP' *)
(* flic/RsaOaepCtx/WrappedKey.py:36-51; a missing mode or KDF info has no
   serialize(): AttributeError *)
Definition wrap_label (keynum : Z) (mode : option Z) (k : option kdf) (keyid : hashv)
    (hashalg : Z) : res bytes :=
  kb <- match k with
        | None => Ok []
        | Some k =>
          match k_info k with
          | None => Err AttributeError
          | Some i => t <- octet_tlv T_KDF_INFO i ;; Ok (tlv_wire t)
          end
        end ;;
  tk <- int_tlv T_KEYNUM keynum ;;
  match mode with
  | None => Err AttributeError
  | Some m =>
    tm <- int_tlv T_AEADMode m ;;
    ti <- htt_tlv T_KEYID keyid ;;
    th <- int_tlv T_HASH_ALG hashalg ;;
    Ok (label_prefix ++ tlv_wire tk ++ tlv_wire tm ++ kb ++ tlv_wire ti ++ tlv_wire th)
  end.
(* flic/RsaOaepCtx/WrappedKey.py:53-78; uint32_to_array(None) is a TypeError *)
Definition wrap_create (k : rsakey) (seed : bytes) (p : aparams) : res bytes :=
  match ap_salt p with
  | None => Err TypeError
  | Some s =>
    _ <- guard ((0 <=? s) && (s <=? 0xFFFFFFFF)) ValueError ;;
    sb <- uint32_to_array s ;;
    kid <- rsa_keyid k ;;
    m <- mode_of_key (ap_key p) ;;
    label <- wrap_label (ap_num p) (Some m) (ap_kdf p) kid T_SHA_256 ;;
    c <- rsa_oaep_encrypt k seed (sb ++ ak_key (ap_key p)) label ;;
    _ <- octet_tlv T_WRAPPED_KEY c ;; Ok c
  end.
(* flic/RsaOaepCtx/WrappedKey.py:95-113 *)
Definition wrap_decrypt (k : rsakey) (ct : bytes) (a : aead) : res (Z * bytes) :=
  kid <- rsa_keyid k ;;
  label <- wrap_label (a_keynum a) (a_mode a) (a_kdf a) kid T_SHA_256 ;;
  p <- rsa_oaep_decrypt k ct label ;;
  _ <- guard (negb (zlen p <? 20)) ValueError ;;
  Ok (array_to_number (ztake 4 p), zskip 4 p).
(* flic/RsaOaepCtx/RsaOaepEncryptor.py:56-59, RsaOaepWrapper.py:41-43 *)
Definition wrapper_create (k : rsakey) (seed : bytes) (p : aparams) : res wrapper :=
  c <- wrap_create k seed p ;;
  kid <- rsa_keyid k ;;
  let w := mkWrap kid None (Some T_SHA_256) (Some c) in
  _ <- wrapper_wire w ;; Ok w.

(* flic/RsaOaepCtx/RsaOaepImpl.py:108-112 *)
Record oimpl := mkOI { oi_wrapper : option wrapper; oi_params : aparams }.
(* flic/RsaOaepCtx/RsaOaepImpl.py:117-131 *)
Definition oaep_encrypt (i : oimpl) (include : bool) (nonce : bytes) (n : node)
  : res (secctx * bytes * bytes) :=
  a <- create_aead_data (oi_params i) nonce ;;
  let c := CRsa a (if include then oi_wrapper i else None) in
  _ <- ctx_tlv c ;;
  '(ct, tag) <- encrypt_with_ctx (oi_params i) n c ;;
  Ok (c, ct, tag).
(* flic/RsaOaepCtx/RsaOaepImpl.py:133-143 *)
Definition oaep_create_manifest (i : oimpl) (include : bool) (nonce : bytes) (n : node)
  : res manifest :=
  r <- oaep_encrypt i include nonce n ;; manifest_of r.
(* flic/RsaOaepCtx/RsaOaepImpl.py:68-75 *)
Definition create_aead_key (m : option Z) (k : bytes) : res aeadkey :=
  match m with
  | None => Err AttributeError
  | Some m =>
    if (m =? MODE_GCM_128) || (m =? MODE_GCM_256) then aeadkey_make GCM k
    else if (m =? MODE_CCM_128) || (m =? MODE_CCM_256) then aeadkey_make CCM k
    else Err ValueError
  end.
(* flic/RsaOaepCtx/RsaOaepImpl.py:77-106 *)
Definition unwrap_params (ks : keystore) (a : aead) (w : option wrapper) : res aparams :=
  match w with
  | None => Err ValueError
  | Some w =>
    k <- get_rsa ks (QKeyId (w_keyid w)) ;;
    _ <- guard (has_private k) ValueError ;;
    match w_key w with
    | None => Err AttributeError
    | Some ct =>
      '(salt, key) <- wrap_decrypt k ct a ;;
      ak <- create_aead_key (a_mode a) key ;;
      ap_make (mkAP ak (a_keynum a) (Some salt) (a_kdf a) None)
    end
  end.
(* flic/RsaOaepCtx/RsaOaepImpl.py:41-66: the instance and the key store
   afterwards (the unwrapped key is added) *)
Definition oimpl_create (ks : keystore) (a : aead) (w : option wrapper) : res (oimpl * keystore) :=
  match get_aes_key ks (a_keynum a) with
  | Ok p => Ok (mkOI w p, ks)
  | Err _ =>
    p <- unwrap_params ks a w ;;
    Ok (mkOI w p, add_aes_key ks p)
  end.

(* ---------------- RsaOaepDecryptor ---------------- *)

(* flic/RsaOaepCtx/RsaOaepDecryptor.py:28-40: cache by (key id, key number);
   both are compared by value (core/HashTlvType.py:44-50,
   core/TlvType.py:132-138) *)
Definition okey : Type := option hashv * Z.
Definition okey_eqb (a b : okey) : bool :=
  match fst a, fst b with
  | Some x, Some y => hashv_key_eqb x y
  | None, None => true
  | _, _ => false
  end && (snd a =? snd b).
Definition ocache : Type := list (okey * oimpl).
(* flic/tlvs/RsaOaepCtx.py:89-92 *)
Definition ctx_okey (a : aead) (w : option wrapper) : okey :=
  (match w with Some w => Some (w_keyid w) | None => None end, a_keynum a).
(* flic/RsaOaepCtx/RsaOaepDecryptor.py:42-51 *)
Definition oaep_get_impl (ks : keystore) (oc : ocache) (a : aead) (w : option wrapper)
  : res oimpl * keystore * ocache :=
  match dict_get okey_eqb (ctx_okey a w) oc with
  | Some i => (Ok i, ks, oc)
  | None =>
    match oimpl_create ks a w with
    | Err e => (Err e, ks, oc)
    | Ok (i, ks') => (Ok i, ks', dict_set (ctx_okey a w) i oc)
    end
  end.
(* flic/RsaOaepCtx/RsaOaepDecryptor.py:53-55.  security_ctx() may be None or
   an AeadCtx, which have no key_id(): AttributeError *)
Definition oaep_decrypt_manifest (ks : keystore) (oc : ocache) (m : manifest)
  : res manifest * keystore * ocache :=
  match m_ctx m with
  | Some (CRsa a w) =>
    match oaep_get_impl ks oc a w with
    | (Ok i, ks', oc') => (decrypt_manifest_with is_rsa_ctx (oi_params i) m, ks', oc')
    | (Err e, ks', oc') => (Err e, ks', oc')
    end
  | _ => (Err AttributeError, ks, oc)
  end.

(* ---------------- DecryptorCache ---------------- *)

(* what get_or_create hands out: None, an AeadDecryptor around its parameters,
   or the one RsaOaepDecryptor of the cache *)
Inductive decryptor := DNone | DAead (p : aparams) | DOaep.
(* flic/tree/DecryptorCache.py:32-36.  The key store and the cache of the
   RsaOaepDecryptor are part of the state. *)
Record dcache := mkDC
  { dc_ks : keystore; dc_num : option Z; dc_last : decryptor; dc_oaep : ocache }.
Definition dc_init (ks : keystore) : dcache := mkDC ks None DNone [].
(* flic/tree/DecryptorCache.py:47-54 *)
Definition dc_create (ks : keystore) (c : secctx) : res decryptor :=
  match c with
  | CAead a => p <- get_aes_key ks (a_keynum a) ;; Ok (DAead p)
  | CRsa _ _ => Ok DOaep
  end.
(* flic/tree/DecryptorCache.py:38-45: the last key number is remembered even
   if the creation fails *)
Definition dc_get (s : dcache) (c : secctx) : res decryptor * dcache :=
  let num := a_keynum (ctx_aead c) in
  if match dc_num s with Some n => num =? n | None => false end
  then (Ok (dc_last s), s)
  else
    match dc_create (dc_ks s) c with
    | Ok d => (Ok d, mkDC (dc_ks s) (Some num) d (dc_oaep s))
    | Err e => (Err e, mkDC (dc_ks s) (Some num) (dc_last s) (dc_oaep s))
    end.
(* decryptor.decrypt_manifest(manifest): flic/aeadctx/AeadDecryptor.py:25-26,
   flic/RsaOaepCtx/RsaOaepDecryptor.py:53-55 *)
Definition dc_decrypt (s : dcache) (d : decryptor) (m : manifest) : res manifest * dcache :=
  match d with
  | DNone => (Err AttributeError, s)
  | DAead p => (aead_decrypt_manifest p m, s)
  | DOaep =>
    let '(r, ks', oc') := oaep_decrypt_manifest (dc_ks s) (dc_oaep s) m in
    (r, mkDC ks' (dc_num s) (dc_last s) oc')
  end.
End Prims.
Arguments RPriv {P} sk.
Arguments RPub {P} pk.
Arguments SCrc {P}.
Arguments SRsa {P} sk.
