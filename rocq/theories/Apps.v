(* The command line programs: apps/cli_utils.py, apps/manifest_writer.py,
   apps/manifest_reader.py, apps/packet_utils.py and apps/packet_reader.py.
   Arguments are taken after argparse has converted them.  Not modelled: the
   parser itself (Cli.v has the texts of options).  Passwords and key files are
   in Pem.v, printing is in Repr.v. *)
From Coq Require Import ZArith List Bool.
From Verif Require Import Py Float Tlv Core Flic Crypto Optimizer Tree Store Traversal Uri.
Import ListNotations.
Open Scope Z_scope.

(* crypto/HpkeKdfIdentifiers.py:17-20, the choices of --kdf
   (apps/cli_utils.py:71-74) *)
Inductive kdfid := HkdfSha256 | HkdfSha384 | HkdfSha512.
Definition kdf_num (i : kdfid) : Z :=
  match i with HkdfSha256 => 1 | HkdfSha384 => 2 | HkdfSha512 => 3 end.

Section Apps.
Variable P : prims.

(* The arguments of add_encryption_cli_args, apps/cli_utils.py:50-81.  A key
   file stands for the key read from it (RsaKey.load_pem_key).  With
   --kdf-uuid the KDF info is the 16 bytes of a fresh UUID (96-97). *)
Record cargs := mkCA
  { ca_key : option (rsakey P); ca_wrap : option (rsakey P);
    ca_enc : option bytes; ca_mode : aalg; ca_num : option Z; ca_salt : option Z;
    ca_kdf : option kdfid; ca_info : option bytes; ca_kdf_salt : option Z }.

(* apps/cli_utils.py:84-93 aes_key_from_cli_args *)
Definition cli_aes_key (a : cargs) : res (option aeadkey) :=
  match ca_enc a with
  | None => Ok None
  | Some b => k <- aeadkey_make (ca_mode a) b ;; Ok (Some k)
  end.
(* apps/cli_utils.py:95-102 kdf_data_from_cli *)
Definition cli_kdf (a : cargs) : res (option kdf) :=
  match ca_kdf a with
  | None => Ok None
  | Some i => let k := mkKdf (kdf_num i) (ca_info a) in _ <- kdf_tlv k ;; Ok (Some k)
  end.
(* apps/cli_utils.py:104-115 aead_parameters_from_cli with a key and a key
   number *)
Definition cli_params (a : cargs) (k : aeadkey) (num : Z) : res aparams :=
  d <- cli_kdf a ;;
  ap_make (mkAP k num (ca_salt a) d (ca_kdf_salt a)).
(* The same without key or without number: only the salts are checked
   (flic/aeadctx/AeadParameters.py:39-48). *)
Definition cli_check (a : cargs) : res unit :=
  _ <- cli_kdf a ;;
  _ <- optM to_bytes4 (ca_salt a) ;;
  _ <- optM to_bytes4 (ca_kdf_salt a) ;; Ok tt.

(* What os.urandom and AESGCM.generate_key return in
   RsaOaepEncryptor.create_with_new_content_key
   (flic/RsaOaepCtx/RsaOaepEncryptor.py:37-54), numbers as integers, and the
   randomness of the RSA-OAEP padding *)
Record fresh := mkFresh { fr_key : bytes; fr_salt : Z; fr_num : Z; fr_seed : bytes }.

(* apps/cli_utils.py:127-137 rsa_oaep_encryptor_from_cli_args, 117-120
   aead_encryptor_from_cli_args and 139-143 encryptor_from_cli_args,
   flic/RsaOaepCtx/RsaOaepEncryptor.py:56-59.  The writer always sets a key
   number with a key; without one the number is None and has no serialize(). *)
Definition cli_encryptor (fr : fresh) (a : cargs) : res encryptor :=
  k <- cli_aes_key a ;;
  match ca_wrap a, k with
  | None, None => Ok ENone
  | None, Some k =>
    match ca_num a with
    | None => Err AttributeError
    | Some n => p <- cli_params a k n ;; Ok (EAead p)
    end
  | Some w, None =>
    d <- cli_kdf a ;;
    k <- aeadkey_make GCM (fr_key fr) ;;
    p <- ap_make (mkAP k (fr_num fr) (Some (fr_salt fr)) d None) ;;
    wr <- wrapper_create P w (fr_seed fr) p ;;
    Ok (EOaep (mkOI (Some wr) p))
  | Some w, Some k =>
    match ca_num a with
    | None => Err AttributeError
    | Some n =>
      p <- cli_params a k n ;;
      wr <- wrapper_create P w (fr_seed fr) p ;;
      Ok (EOaep (mkOI (Some wr) p))
    end
  end.

(* apps/cli_utils.py:145-149 rsa_signer_from_cli_args; RsaSha256Signer
   (crypto/RsaSha256.py:34-35) refuses a public key *)
Definition cli_signer (a : cargs) : res (option (signer P)) :=
  match ca_key a with
  | None => Ok None
  | Some (RPriv sk) => Ok (Some (SRsa sk))
  | Some (RPub _) => Err RuntimeError
  end.

(* "default" and "wrap" *)
Definition n_default : bytes := [100; 101; 102; 97; 117; 108; 116].
Definition n_wrap : bytes := [119; 114; 97; 112].
(* apps/cli_utils.py:170-182 create_keystore; add_aes_key takes the value() of
   the key number, which is None without --key-num *)
Definition cli_aes_store (a : cargs) : res (keystore P) :=
  k <- cli_aes_key a ;;
  match k with
  | None => _ <- cli_check a ;; Ok (ks_empty P)
  | Some k =>
    match ca_num a with
    | None => _ <- cli_check a ;; Err AttributeError
    | Some n => p <- cli_params a k n ;; Ok (add_aes_key P (ks_empty P) p)
    end
  end.
Definition cli_add (ks : keystore P) (name : bytes) (k : option (rsakey P)) : res (keystore P) :=
  match k with None => Ok ks | Some k => add_rsa_key P ks name k end.
Definition create_keystore (a : cargs) : res (keystore P) :=
  s <- cli_aes_store a ;;
  s <- cli_add s n_default (ca_key a) ;;
  cli_add s n_wrap (ca_wrap a).

(* ---------------- manifest_writer ---------------- *)

(* apps/manifest_writer.py:115-147.  Expiry times are in milliseconds since
   1970.  The schema is one of the choices of the parser, which
   SchemaType.parse knows (flic/name_constructor/SchemaType.py:22-31). *)
Record wargs := mkWA
  { wa_schema : stype; wa_name : text;
    wa_mloc : option text; wa_dloc : option text; wa_mprefix : option text; wa_dprefix : option text;
    wa_degree : option Z; wa_max : Z;
    wa_rexp : option Z; wa_mexp : option Z; wa_dexp : option Z;
    wa_link : bool; wa_c : cargs }.

(* flic/tlvs/Locators.py:35-45, flic/tlvs/Locator.py:33-38 *)
Definition locators_from_uri (u : option text) : res (option (list link)) :=
  match u with
  | None => Ok None
  | Some _ =>
    n <- from_uri u ;;
    let l := [mkLink n None None] in
    _ <- locs_tlv l ;; Ok (Some l)
  end.
(* apps/manifest_writer.py:81-92 _parse_time, core/Timestamp.py:29-31
   from_datetime: round(t, 3) is the float nearest to a whole number of
   milliseconds.  Iso.v models datetime.fromisoformat, and times before 1970
   and between milliseconds. *)
Definition cli_time (m : option Z) : res (option fl) :=
  match m with
  | None => Ok None
  | Some m => f <- ts_of_msec m ;; _ <- ts_tlv T_EXPIRY f ;; Ok (Some f)
  end.

(* apps/manifest_writer.py:48-69 _create_tree_options *)
Definition writer_options (fr : fresh) (a : wargs) : res (opts P) :=
  n <- from_uri (Some (wa_name a)) ;;
  s <- cli_signer (wa_c a) ;;
  mp <- from_uri (wa_mprefix a) ;;
  dp <- from_uri (wa_dprefix a) ;;
  ml <- locators_from_uri (wa_mloc a) ;;
  dl <- locators_from_uri (wa_dloc a) ;;
  re <- cli_time (wa_rexp a) ;;
  me <- cli_time (wa_mexp a) ;;
  de <- cli_time (wa_dexp a) ;;
  e <- cli_encryptor fr (wa_c a) ;;
  Ok (mkOpts P n (wa_schema a) s mp dp ml dl re me de e true false false (wa_degree a) (wa_max a)).

Definition set_num (n : option Z) (a : cargs) : cargs :=
  mkCA (ca_key a) (ca_wrap a) (ca_enc a) (ca_mode a) n (ca_salt a) (ca_kdf a) (ca_info a) (ca_kdf_salt a).
Definition set_cargs (c : cargs) (a : wargs) : wargs :=
  mkWA (wa_schema a) (wa_name a) (wa_mloc a) (wa_dloc a) (wa_mprefix a) (wa_dprefix a) (wa_degree a) (wa_max a)
    (wa_rexp a) (wa_mexp a) (wa_dexp a) (wa_link a) c.
(* apps/manifest_writer.py:152-154; [hash] is Python's hash of a bytes object,
   which differs from process to process and may be negative *)
Definition default_num (hash : bytes -> Z) (c : cargs) : cargs :=
  match ca_enc c, ca_num c with
  | Some k, None => set_num (Some (hash k)) c
  | _, _ => c
  end.

(* apps/manifest_writer.py:163-167 *)
Definition check_prefixes (a : wargs) : res unit :=
  match wa_schema a with
  | Segmented => guard (negb (is_none (wa_mprefix a) || is_none (wa_dprefix a))) ValueError
  | _ => guard (is_none (wa_mprefix a) && is_none (wa_dprefix a)) ValueError
  end.

Section Writer.
Variable hash : bytes -> Z.
Variable fr : fresh.
Variable clog : Z -> Z -> Z -> Z.
Variable rnd : nat -> bytes.
Variable now : fl.

(* The options and the directory writer of a run, apps/manifest_writer.py:
   152-170, without -T *)
Definition writer_setup (a : wargs) : res (opts P * dwopt P) :=
  let a := set_cargs (default_num hash (wa_c a)) a in
  s <- cli_signer (wa_c a) ;;
  _ <- check_prefixes a ;;
  o <- writer_options fr a ;;
  Ok (o, mkDO P (wa_link a) s false now).
(* apps/manifest_writer.py:71-79, 94-106, 147-174: a run on a file with this
   content, in a fresh process, where the next NcId is 1
   (flic/name_constructor/SchemaImplFactory.py:38) *)
Definition writer_run (a : wargs) (data : bytes) : st mst packet :=
  '(o, _) <~ lift (writer_setup a) ;;
  manifest_tree P clog rnd now o 1 data.
End Writer.

(* ---------------- manifest_reader ---------------- *)

(* The argument hash_restriction of PacketReader.get as a Python value *)
Inductive hasharg := HNone | HStr (t : text) | HVal (h : hashv).

Section Reader.
Variable uri_path : name -> res bytes.
Variable now : fl.
(* TreeIO.py:237-247 with any hash_restriction: to_path (130-148) raises
   TypeError for a str *)
Definition dir_get_arg (d : files) (nm : option name) (h : hasharg) : res packet :=
  match h with
  | HNone => dir_get uri_path now d nm None
  | HVal h => dir_get uri_path now d nm (Some h)
  | HStr _ => Err TypeError
  end.

(* flic/tree/Traversal.py:82-91 with any hash_restriction; the hashes of
   children are HashValues *)
Definition traverse_arg (d : files) (fuel : nat) (nm : option name) (h : hasharg) : st (tst P) unit :=
  p <~ lift (dir_get_arg d nm h) ;;
  _ <~ validate P p ;;
  preorder P (fun n x => dir_get uri_path now d n x) true fuel [] p.

(* apps/manifest_reader.py:122-134: the name and the hash restriction, which
   is the text given, and the encryption arguments *)
Record rargs := mkRA { ra_name : text; ra_hash : option text; ra_c : cargs }.

(* apps/manifest_reader.py:65-78, 99-108, 139-148 without -T: the outcome and
   the writes to the output.  The output file is opened, and so
   emptied, before the traversal. *)
Definition reader_run (d : files) (fuel : nat) (a : rargs) : res unit * list bytes :=
  match (k <- create_keystore (ra_c a) ;; n <- from_uri (Some (ra_name a)) ;; Ok (k, n)) with
  | Err e => (Err e, [])
  | Ok (k, n) =>
    let '(r, s) := traverse_arg d fuel n (match ra_hash a with None => HNone | Some t => HStr t end)
                     (tst_new P (Some k)) in
    (r, ts_out s)
  end.
End Reader.

(* ---------------- packet_utils, packet_reader ---------------- *)

(* apps/packet_utils.py:27-53 validate_packet: true if a signature or checksum
   was verified, false if the packet was let through without *)
Definition utils_validate (ks : keystore P) (p : packet) : res bool :=
  match p_alg p with
  | None => Ok false
  | Some VCrc32c =>
    b <- body_wire (p_body p) ;;
    a <- valg_tlv VCrc32c ;;
    r <- crc_verify P [b; tlv_wire a] (p_vpl p) ;;
    _ <- guard r ValueError ;; Ok true
  | Some (VRsa kid pk kl st) =>
    match get_rsa P ks (QHash kid) with
    | Err _ => Ok false
    | Ok k =>
      b <- body_wire (p_body p) ;;
      a <- valg_tlv (VRsa kid pk kl st) ;;
      r <- rsa_verify_payload P k [b; tlv_wire a] (p_vpl p) ;;
      _ <- guard r ValueError ;; Ok true
    end
  end.

(* apps/packet_utils.py:56-86 _get_aead_decryptor, decrypt_manifest.  None:
   printed a message.  Without the key the decryptor is None, which has no
   decrypt_manifest; DecryptionError is caught. *)
Definition utils_decrypt (ks : keystore P) (m : manifest) : res (option manifest) :=
  if negb (is_encrypted m) then Ok (Some m)
  else
    match m_ctx m with
    | None => Ok None
    | Some (CAead a) =>
      match get_aes_key P ks (a_keynum a) with
      | Err _ => Err AttributeError
      | Ok p =>
        match aead_decrypt_manifest P p m with
        | Ok m => Ok (Some m)
        | Err DecryptionError => Ok None
        | Err e => Err e
        end
      end
    | Some (CRsa _ _) =>
      match fst (fst (oaep_decrypt_manifest P ks [] m)) with
      | Ok m => Ok (Some m)
      | Err DecryptionError => Ok None
      | Err e => Err e
      end
    end.

(* What packet_reader shows, apps/packet_reader.py:39, 50-68: the packet, whether
   it was verified, and for an encrypted manifest what decryption gave.  The
   body of a packet is a content object (core/Packet.py:83-90).  A KeyError of
   the validation, which is caught, does not occur. *)
Record shown := mkShown
  { sh_packet : packet; sh_verified : bool; sh_manifest : option (option manifest) }.
Definition packet_read (a : cargs) (now : fl) (content : bytes) : res shown :=
  ks <- create_keystore a ;;
  p <- packet_deserialize now content ;;
  v <- utils_validate ks p ;;
  match p_body p with
  | BInterest _ => Err AttributeError
  | BCO c =>
    if is_manifest c then
      m <- man_from_content c ;;
      if is_encrypted m then
        d <- utils_decrypt ks m ;; Ok (mkShown p v (Some d))
      else Ok (mkShown p v None)
    else Ok (mkShown p v None)
  end.
End Apps.
Arguments ca_key {P} c.
Arguments ca_wrap {P} c.
Arguments ca_enc {P} c.
Arguments ca_mode {P} c.
Arguments ca_num {P} c.
Arguments ca_salt {P} c.
Arguments ca_kdf {P} c.
Arguments ca_info {P} c.
Arguments ca_kdf_salt {P} c.
Arguments wa_schema {P} w.
Arguments wa_name {P} w.
Arguments wa_mloc {P} w.
Arguments wa_dloc {P} w.
Arguments wa_mprefix {P} w.
Arguments wa_dprefix {P} w.
Arguments wa_degree {P} w.
Arguments wa_max {P} w.
Arguments wa_rexp {P} w.
Arguments wa_mexp {P} w.
Arguments wa_dexp {P} w.
Arguments wa_link {P} w.
Arguments wa_c {P} w.
Arguments ra_name {P} r.
Arguments ra_hash {P} r.
Arguments ra_c {P} r.
