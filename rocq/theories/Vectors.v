(* The repository's own tests (/repo/tests), run on the model.  These are
   tests, not theorems about the code: they check that the definitions of this
   development behave as the authors of the code expect theirs to.  Each
   example names the test it transcribes.  Where a test compares digests, the
   digests are those of Digests.v. *)
From Coq Require Import ZArith List Bool String Ascii.
From Verif Require Import Py Float Tlv Core Flic Crypto Optimizer Tree Traversal Store Uri Cli Iter Digests
  PropsOptimizer PropsCrypto.
Import ListNotations.
Open Scope Z_scope.
Open Scope list_scope.

(* the characters of an ASCII text *)
Definition str (s : string) : bytes := map (fun a => Z.of_N (N_of_ascii a)) (list_ascii_of_string s).
Definition uri (s : string) : name :=
  match from_uri (Some (str s)) with Ok (Some n) => n | _ => [] end.
Definition writes (m : res tlv) : res bytes := t <- m ;; Ok (tlv_wire t).
Definition reads {A} (parse : tlv -> res A) (w : bytes) : res A := t <- tlv_deserialize w ;; parse t.
(* both directions *)
Definition vector {A} (enc : A -> res tlv) (parse : tlv -> res A) (x : A) (w : bytes) : Prop :=
  writes (enc x) = Ok w /\ reads parse w = Ok x.
Definition now0 : fl := mkFl 0 0.
Definition sha (l : bytes) : hashv := mkHash T_SHA_256 l.
Ltac run := vm_compute; repeat split; reflexivity.

(** * tests/core *)

(* test_Tlv.py test_serialize_array, test_serialize_tlv, test_deserialize,
   test_tlv_array_value, test_extend *)
Example v_tlv : writes (tlv_make 0x1234 [10; 11; 12; 13]) = Ok [0x12; 0x34; 0; 4; 10; 11; 12; 13].
Proof. run. Qed.
Example v_tlv_nested : writes (i <- tlv_make 1 [10; 11; 12; 13] ;; tlv_make 2 (tlv_wire i)) =
  Ok [0; 2; 0; 8; 0; 1; 0; 4; 10; 11; 12; 13].
Proof. run. Qed.
Example v_tlv_read : tlv_deserialize [0; 2; 0; 8; 0; 1; 0; 4; 10; 11; 12; 13] = Ok (mkTlv 2 [0; 1; 0; 4; 10; 11; 12; 13]).
Proof. run. Qed.
Example v_tlv_list : writes (a <- tlv_make 1 [0; 1; 0; 4; 10; 11; 12; 13] ;; b <- tlv_make 2 [10; 11; 12; 13] ;;
    d <- tlv_make 4 [10; 11; 12; 13] ;; tlv_make 1 (flatten [Some (tlv_wire a); Some (tlv_wire b); None; Some (tlv_wire d)])) =
  Ok [0; 1; 0; 28;  0; 1; 0; 8; 0; 1; 0; 4; 10; 11; 12; 13;  0; 2; 0; 4; 10; 11; 12; 13;  0; 4; 0; 4; 10; 11; 12; 13].
Proof. run. Qed.
Example v_tlv_extend : writes (a <- tlv_make 1 [2; 3; 4] ;; b <- tlv_make 5 [6; 7] ;; tlv_extend a b) =
  Ok [0; 1; 0; 9; 2; 3; 4; 0; 5; 0; 2; 6; 7].
Proof. run. Qed.

(* test_Name.py test_from_uri, test_deserialize *)
Example v_name : vector name_tlv name_parse (uri "ccnx:/apple/banana/cherry/durian")
  [0; 0; 0; 39;  0; 1; 0; 5; 97; 112; 112; 108; 101;  0; 1; 0; 6; 98; 97; 110; 97; 110; 97;
   0; 1; 0; 6; 99; 104; 101; 114; 114; 121;  0; 1; 0; 6; 100; 117; 114; 105; 97; 110].
Proof. run. Qed.

(* test_Link.py, test_KeyLink.py *)
Definition v_link_obj : link := mkLink (Some (uri "ccnx:/a/b")) (Some (mkHash 1 [97; 98])) (Some (mkHash 2 [65; 66; 67; 68])).
Definition v_link_bytes : bytes :=
  [0; 0; 0; 10; 0; 1; 0; 1; 97; 0; 1; 0; 1; 98;  0; 2; 0; 6; 0; 1; 0; 2; 97; 98;  0; 3; 0; 8; 0; 2; 0; 4; 65; 66; 67; 68].
Example v_link : link_wire v_link_obj = Ok v_link_bytes /\ link_deserialize v_link_bytes = Ok v_link_obj.
Proof. run. Qed.
Example v_keylink : vector keylink_tlv keylink_parse v_link_obj ([0; 14; 0; 36] ++ v_link_bytes).
Proof. run. Qed.

(* test_ExpiryTime.py; the two timestamps are the doubles nearest to the
   literals *)
Example v_expiry : writes (ts_tlv T_EXPIRY (fl_round 1560227545906023 1000000)) =
    Ok [0; 6; 0; 8; 0; 0; 1; 0x6b; 0x44; 0xcf; 3; 0x32] /\
  reads (ts_parse T_EXPIRY) [0; 6; 0; 8; 0; 0; 1; 0x6b; 0x44; 0xcf; 3; 0x32] = Ok (fl_round 1560227545906 1000).
Proof. run. Qed.

(* test_FinalChunkId.py, test_PayloadType.py, test_Payload.py,
   test_ValidationPayload.py *)
Example v_fcid : vector fcid_tlv fcid_parse 0x123456 [0; 7; 0; 3; 0x12; 0x34; 0x56].
Proof. run. Qed.
Example v_ptype : vector ptype_tlv ptype_parse PT_LINK [0; 5; 0; 1; 2].
Proof. run. Qed.
Example v_payload : vector payload_tlv payload_parse [1; 2; 3; 4] [0; 1; 0; 4; 1; 2; 3; 4].
Proof. run. Qed.
Example v_vpl : vector vpl_tlv vpl_parse [1; 2; 3; 4; 5; 6] [0; 4; 0; 6; 1; 2; 3; 4; 5; 6].
Proof. run. Qed.

(* test_FixedHeader.py *)
Example v_header : hdr_serialize (mkHdr 1 1 0x0102 (7, 8, 9) 8) = Ok [1; 1; 1; 2; 7; 8; 9; 8] /\
  hdr_deserialize [1; 1; 1; 2; 7; 8; 9; 8] = Ok (mkHdr 1 1 0x0102 (7, 8, 9) 8).
Proof. run. Qed.

(* test_ContentObject.py test_serialize, test_deserialize *)
Definition v_co_bytes : bytes :=
  [0; 2; 0; 51;  0; 0; 0; 16; 0; 1; 0; 5; 97; 112; 112; 108; 101; 0; 1; 0; 3; 112; 105; 101;
   0; 6; 0; 8; 0; 0; 1; 107; 70; 79; 136; 178;  0; 5; 0; 1; 0;  0; 1; 0; 5; 1; 3; 5; 7; 9;  0; 7; 0; 1; 9].
Example v_co : (c <- create_data (Some (uri "ccnx:/apple/pie")) (Some [1; 3; 5; 7; 9]) (Some (fl_round 1560252745906 1000)) (Some 9) ;;
    w <- writes (co_tlv c) ;; c' <- reads co_parse v_co_bytes ;; Ok (w, c')) =
  (c <- create_data (Some (uri "ccnx:/apple/pie")) (Some [1; 3; 5; 7; 9]) (Some (fl_round 1560252745906 1000)) (Some 9) ;;
   Ok (v_co_bytes, c)).
Proof. run. Qed.
(* test_ContentObject.py test_create_manifest *)
Example v_co_manifest : let m := mkMan None (MNode (mkNode None [mkHG None (Some [sha [0]])] None)) None in
  (c <- man_content m (Some (uri "ccnx:/foo")) (Some (fl_round 1560252745906 1000)) ;; w <- writes (co_tlv c) ;;
   c' <- reads co_parse w ;; man_from_content c') = Ok m.
Proof. run. Qed.

(* test_ValidationAlg.py *)
Example v_crc_alg : vector valg_tlv (valg_parse now0) VCrc32c [0; 3; 0; 4; 0; 2; 0; 0].
Proof. run. Qed.
Definition v_rsa_bytes : bytes :=
  [0; 3; 0; 27;  0; 4; 0; 23;  0; 9; 0; 7; 0; 1; 0; 3; 97; 98; 99;  0; 15; 0; 8; 0; 0; 2; 3; 4; 5; 6; 7].
Example v_rsa_alg : (t <- ts_parse T_SIGTIME (mkTlv T_SIGTIME [0; 0; 2; 3; 4; 5; 6; 7]) ;;
    let a := VRsa (sha [97; 98; 99]) None None t in
    w <- writes (valg_tlv a) ;; a' <- reads (valg_parse now0) v_rsa_bytes ;; Ok (w, a')) =
  (t <- ts_parse T_SIGTIME (mkTlv T_SIGTIME [0; 0; 2; 3; 4; 5; 6; 7]) ;;
   Ok (v_rsa_bytes, VRsa (sha [97; 98; 99]) None None t)).
Proof. run. Qed.

(* the digests of Digests.v in place of the libraries; signing is a constant *)
Definition prims_with (h : bytes -> bytes) : prims := mkPrims h crc32c Z Z (fun sk => sk) (fun pk => [pk]) (fun _ => 2048)
  (fun _ _ => Ok (repeat 0 256)) (fun _ _ _ => true)
  (pr_oaep_enc toy) (pr_oaep_dec toy) (pr_seal toy) (pr_open toy).
Definition real : prims := prims_with sha256.
(* for the tests that do not mention a digest: 32 bytes as well, quicker to
   compute *)
Definition quick : prims :=
  prims_with (fun b =>
    let '(s, t) := fold_left (fun '(s, t) x => (s + x + 1, t + s)) b (0, 0) in
    flat_map (fun n => map (fun k => Z.land (Z.shiftr n k) 255) [24; 16; 8; 0]) [s; t] ++ repeat 0 24).

(* test_Packet.py test_create_content_object,
   test_create_signed_content_object, test_deserialize_signed_content_object *)
Definition v_apple : res content := create_data (Some (uri "ccnx:/apple")) (Some [1; 2; 3; 4]) None None.
Definition v_apple_bytes : bytes :=
  [0; 2; 0; 26;  0; 0; 0; 9; 0; 1; 0; 5; 97; 112; 112; 108; 101;  0; 5; 0; 1; 0;  0; 1; 0; 4; 1; 2; 3; 4].
Definition v_signed_bytes : bytes :=
  [1; 1; 0; 54; 0; 0; 0; 8] ++ v_apple_bytes ++ [0; 3; 0; 4; 0; 2; 0; 0;  0; 4; 0; 4; 0; 90; 226; 225].
Example v_packet : (c <- v_apple ;; p <- create_content_object c ;; packet_wire p) = Ok ([1; 1; 0; 38; 0; 0; 0; 8] ++ v_apple_bytes).
Proof. run. Qed.
Example v_signed : (c <- v_apple ;; p <- sign_content real SCrc now0 c ;; packet_wire p) = Ok v_signed_bytes /\
  packet_deserialize now0 v_signed_bytes = (c <- v_apple ;; sign_content real SCrc now0 c).
Proof. run. Qed.

(** * tests/crypto *)

(* test_Crc32c.py *)
Example v_crc : map (fun b => signer_sign real SCrc b)
    [[str "the quick brown fox"]; [str "The quick brown fox jumps over the lazy dog"]; [str "abcdefg"];
     [str "The quick brown fox "; str "jumps over the lazy dog"]] =
  map uint32_to_array [0x3355EFD3; 0x22620404; 0xE627F441; 0x22620404].
Proof. run. Qed.
Example v_crc_verify : map (fun x => v <- uint32_to_array (snd x) ;; crc_verify real [fst x] (Some v))
    [(str "the quick brown fox", 0x3355EFD3); (str "The quick brown fox jumps over the lazy dog", 0x22620404);
     (str "abcdefg", 0xE627F441); (str "abcdefg", 0xE627F400)] = [Ok true; Ok true; Ok true; Ok false].
Proof. run. Qed.

(** * tests/flic/tlvs *)

(* test_AeadCtx.py test_serialize, test_serialize_with_kdf;
   ../aeadctx/test_AeadImpl.py test_aeadctx_serialize *)
Example v_aeadctx : vector ctx_tlv ctx_parse (CAead (mkAead 12 [1; 2] (Some 1) None))
  [0; T_SECURITY_CTX; 0; 20;  0; T_AEAD_CTX; 0; 16;  0; T_KEYNUM; 0; 1; 12;  0; T_NONCE; 0; 2; 1; 2;  0; T_AEADMode; 0; 1; 1].
Proof. run. Qed.
Example v_aeadctx_kdf : vector ctx_tlv ctx_parse (CAead (mkAead 12 [1; 2] (Some 1) (Some (mkKdf 1 (Some [32; 33; 34])))))
  [0; T_SECURITY_CTX; 0; 36;  0; T_AEAD_CTX; 0; 32;  0; T_KEYNUM; 0; 1; 12;  0; T_NONCE; 0; 2; 1; 2;  0; T_AEADMode; 0; 1; 1;
   0; T_KDF_DATA; 0; 12;  0; T_KDF_ALG; 0; 1; 1;  0; T_KDF_INFO; 0; 3; 32; 33; 34].
Proof. run. Qed.
(* test_AuthTag.py, test_EncryptedNode.py, test_KdfAlg.py, test_KdfInfo.py,
   test_AeadMode.py, test_LeafSize.py, test_NcId.py, test_StartSegmentId.py,
   test_SubtreeSize.py, test_SuffixComponentType.py, test_ProtocolFlags.py *)
Example v_tag : vector (octet_tlv T_AUTH_TAG) (octet_parse T_AUTH_TAG) [1; 2; 3; 4] [0; 3; 0; 4; 1; 2; 3; 4].
Proof. run. Qed.
Example v_enc : vector (octet_tlv T_ENCRYPTED_NODE) (octet_parse T_ENCRYPTED_NODE) [1; 2; 3; 4] [0; T_ENCRYPTED_NODE; 0; 4; 1; 2; 3; 4].
Proof. run. Qed.
Example v_kdfalg : vector (int_tlv T_KDF_ALG) (int_parse T_KDF_ALG) 1 [0; T_KDF_ALG; 0; 1; 1].
Proof. run. Qed.
Example v_kdfinfo : vector (octet_tlv T_KDF_INFO) (octet_parse T_KDF_INFO) (str "abcd") [0; T_KDF_INFO; 0; 4; 97; 98; 99; 100].
Proof. run. Qed.
Example v_mode : vector (int_tlv T_AEADMode) (int_parse T_AEADMode) 1 [0; T_AEADMode; 0; 1; 1].
Proof. run. Qed.
Example v_leafsize : vector (int_tlv T_LEAF_SIZE) (int_parse T_LEAF_SIZE) 0x010203 [0; T_LEAF_SIZE; 0; 3; 1; 2; 3].
Proof. run. Qed.
Example v_ncid : vector (int_tlv T_NCID) (int_parse T_NCID) 5 [0; T_NCID; 0; 1; 5] /\
  vector (int_tlv T_NCID) (int_parse T_NCID) 0x123456 [0; T_NCID; 0; 3; 0x12; 0x34; 0x56].
Proof. run. Qed.
Example v_start : vector (int_tlv T_START_SEGMENT_ID) (int_parse T_START_SEGMENT_ID) 22 [0; T_START_SEGMENT_ID; 0; 1; 22].
Proof. run. Qed.
Example v_size : vector (int_tlv T_SUBTREE_SIZE) (int_parse T_SUBTREE_SIZE) 0x010203 [0; T_SUBTREE_SIZE; 0; 3; 1; 2; 3].
Proof. run. Qed.
Example v_suffix : vector suffix_tlv suffix_parse 0x1234 [0; T_SUFFIX_TYPE; 0; 2; 0x12; 0x34] /\ suffix_tlv 0x12345 = Err ValueError.
Proof. run. Qed.
Example v_flags : vector flags_tlv flags_parse [1; 3; 5; 7; 9] [0; T_PROTOCOL_FLAGS; 0; 5; 1; 3; 5; 7; 9] /\
  reads flags_parse [0; 99; 0; 5; 1; 3; 5; 7; 9] = Err CannotParseError.
Proof. run. Qed.
(* test_LeafDigest.py, test_SubtreeDigest.py *)
Example v_digests : vector (htt_tlv T_LEAF_DIGEST) (htt_parse T_LEAF_DIGEST) (mkHash 55 [1; 2; 3]) [0; T_LEAF_DIGEST; 0; 7; 0; 55; 0; 3; 1; 2; 3] /\
  vector (htt_tlv T_SUBTREE_DIGEST) (htt_parse T_SUBTREE_DIGEST) (mkHash 55 [1; 2; 3]) [0; T_SUBTREE_DIGEST; 0; 7; 0; 55; 0; 3; 1; 2; 3].
Proof. run. Qed.
(* test_GroupData.py *)
Example v_gdata : vector gd_tlv gd_parse (mkGD (Some 0x0102) (Some (sha [100; 110; 120])) None None None None)
    [0; T_GROUP_DATA; 0; 17;  0; T_SUBTREE_SIZE; 0; 2; 1; 2;  0; T_SUBTREE_DIGEST; 0; 7; 0; 1; 0; 3; 100; 110; 120] /\
  vector gd_tlv gd_parse (mkGD None None (Some 0x1234) None None None)
    [0; T_GROUP_DATA; 0; 6;  0; T_LEAF_SIZE; 0; 2; 0x12; 0x34] /\
  vector gd_tlv gd_parse (mkGD None None None (Some (sha [100; 110; 120])) None None)
    [0; T_GROUP_DATA; 0; 11;  0; T_LEAF_DIGEST; 0; 7; 0; 1; 0; 3; 100; 110; 120] /\
  vector gd_tlv gd_parse (mkGD None None None None (Some 9) None) [0; T_GROUP_DATA; 0; 5;  0; T_NCID; 0; 1; 9] /\
  vector gd_tlv gd_parse (mkGD None None None None None (Some 9)) [0; T_GROUP_DATA; 0; 5;  0; T_START_SEGMENT_ID; 0; 1; 9].
Proof. run. Qed.
(* test_Pointers.py, test_HashGroup.py *)
Definition v_h1 := mkHash 1 [1; 2]. Definition v_h2 := mkHash 2 [3; 4]. Definition v_h3 := mkHash 3 [5; 6].
Definition v_size_only (n : Z) : gdata := mkGD (Some n) None None None None None.
Example v_ptrs : vector ptrs_tlv ptrs_parse [v_h1; v_h2; v_h3]
  [0; T_PTRS; 0; 18;  0; 1; 0; 2; 1; 2;  0; 2; 0; 2; 3; 4;  0; 3; 0; 2; 5; 6].
Proof. run. Qed.
Example v_group : vector hg_tlv hg_parse (mkHG (Some (v_size_only 0x0234)) (Some [v_h1; v_h2; v_h3]))
  [0; T_HASH_GROUP; 0; 32;  0; T_GROUP_DATA; 0; 6;  0; T_SUBTREE_SIZE; 0; 2; 2; 0x34;
   0; T_PTRS; 0; 18;  0; 1; 0; 2; 1; 2;  0; 2; 0; 2; 3; 4;  0; 3; 0; 2; 5; 6].
Proof. run. Qed.
(* test_Locator.py, test_Locators.py *)
Definition v_loc (s : string) : link := mkLink (Some (uri s)) None None.
Definition v_locs_bytes : bytes :=
  [0; T_LOCATORS; 0; 31;  0; T_LINK; 0; 14;  0; 0; 0; 10; 0; 1; 0; 1; 97; 0; 1; 0; 1; 98;  0; T_LINK; 0; 9;  0; 0; 0; 5; 0; 1; 0; 1; 99].
Example v_locator : vector loc_tlv loc_parse v_link_obj ([0; T_LINK; 0; 36] ++ v_link_bytes).
Proof. run. Qed.
Example v_locators : vector locs_tlv locs_parse [v_loc "ccnx:/a/b"; v_loc "ccnx:/c"] v_locs_bytes.
Proof. run. Qed.
(* test_NcSchema.py, test_NcDef.py *)
Example v_schemas : vector schema_tlv prefix_schema_parse (SPrefix (Some (uri "ccnx:/abc")) None None)
    [0; T_PrefixSchema; 0; 11;  0; 0; 0; 7; 0; 1; 0; 3; 97; 98; 99] /\
  vector schema_tlv seg_schema_parse (SSeg (Some (uri "ccnx:/abc")) (Some T_CHUNKID) None None)
    [0; T_SegmentedSchema; 0; 17;  0; 0; 0; 7; 0; 1; 0; 3; 97; 98; 99;  0; T_SUFFIX_TYPE; 0; 2; 0; 5] /\
  vector schema_tlv hash_schema_parse (SHash (Some [v_loc "ccnx:/a"]) None)
    [0; T_HashSchema; 0; 17;  0; T_LOCATORS; 0; 13;  0; T_LINK; 0; 9;  0; 0; 0; 5; 0; 1; 0; 1; 97].
Proof. run. Qed.
Example v_ncdef : vector ncdef_tlv ncdef_parse (mkNcDef (Some 5) (Some (SHash (Some [v_loc "ccnx:/a"]) None)))
  [0; T_NCDEF; 0; 26;  0; T_NCID; 0; 1; 5;  0; T_HashSchema; 0; 17;  0; T_LOCATORS; 0; 13;  0; T_LINK; 0; 9;  0; 0; 0; 5; 0; 1; 0; 1; 97].
Proof. run. Qed.
(* test_Vendor.py *)
Example v_vendor : vector vendor_tlv vendor_parse (mkVendor 0x1234 []) [0x0F; 0xFF; 0; 3; 0; 0x12; 0x34] /\
  vector vendor_tlv vendor_parse (mkVendor 0x1234 [5; 6; 7; 8]) [0x0F; 0xFF; 0; 7; 0; 0x12; 0x34; 5; 6; 7; 8].
Proof. run. Qed.
(* test_NodeData.py test_serialize, test_parse, test_with_nc_defs_hashed *)
Example v_ndata : vector nd_tlv nd_parse
    (mkND (Some 0x0102) (Some (sha [100; 110; 120])) (Some [v_loc "ccnx:/a/b"; v_loc "ccnx:/c"]) [] [])
    ([0; T_NODE_DATA; 0; 52;  0; T_SUBTREE_SIZE; 0; 2; 1; 2;  0; T_SUBTREE_DIGEST; 0; 7; 0; 1; 0; 3; 100; 110; 120] ++ v_locs_bytes).
Proof. run. Qed.

(* test_Node.py test_serialize, test_serialize_with_pad, test_hash_values *)
Definition v_node (pad : option Z) : node :=
  mkNode (Some (mkND (Some 1000) None None [] []))
    [mkHG (Some (v_size_only 0x0234)) (Some [v_h1; v_h2]); mkHG None (Some [v_h3])] pad.
Definition v_node_value : bytes :=
  [0; T_NODE_DATA; 0; 6;  0; T_SUBTREE_SIZE; 0; 2; 0x03; 0xE8;
   0; T_HASH_GROUP; 0; 26;  0; T_GROUP_DATA; 0; 6;  0; T_SUBTREE_SIZE; 0; 2; 2; 0x34;
   0; T_PTRS; 0; 12;  0; 1; 0; 2; 1; 2;  0; 2; 0; 2; 3; 4;
   0; T_HASH_GROUP; 0; 10;  0; T_PTRS; 0; 6;  0; 3; 0; 2; 5; 6].
Example v_node_plain : vector node_tlv node_parse (v_node None) ([0; T_NODE; 0; 54] ++ v_node_value).
Proof. run. Qed.
Example v_node_pad : writes (node_tlv (v_node (Some 96))) =
  Ok ([0; T_NODE; 0; 92] ++ v_node_value ++ [0x0F; 0xFE; 0; 34] ++ repeat 0 34).
Proof. run. Qed.
Example v_node_values : node_hash_values (n_groups (v_node None)) = Ok [v_h1; v_h2; v_h3].
Proof. run. Qed.
(* test_Node.py test_hash_iterator, test_hash_iterator_empty_first_group,
   test_hash_iterator_empty_second_group, test_iter, test_segment_id *)
Definition v_nc_group (nc : Z) (start : option Z) (l : list Z) : hgroup :=
  mkHG (Some (mkGD None None None None (Some nc) start)) (Some (map (fun i => sha [i]) l)).
Definition v_it (nc i : Z) (seg : option Z) : hiv := mkHiv nc (sha [i]) seg.
Example v_iter :
  node_iter [v_nc_group 1 None [0; 1; 2; 3]; v_nc_group 2 None [4; 5]] =
    ([v_it 1 0 None; v_it 1 1 None; v_it 1 2 None; v_it 1 3 None; v_it 2 4 None; v_it 2 5 None], None) /\
  node_iter [v_nc_group 1 None []; v_nc_group 2 None [4; 5]] = ([v_it 2 4 None; v_it 2 5 None], None) /\
  node_iter [v_nc_group 1 None [0; 1]; v_nc_group 2 None []] = ([v_it 1 0 None; v_it 1 1 None], None) /\
  node_iter [v_nc_group 1 None [0; 1]] = ([v_it 1 0 None; v_it 1 1 None], None) /\
  node_iter [v_nc_group 1 (Some 10) [0; 1]; v_nc_group 2 (Some 0) [2; 3]] =
    ([v_it 1 0 (Some 10); v_it 1 1 (Some 11); v_it 2 2 (Some 0); v_it 2 3 (Some 1)], None).
Proof. run. Qed.

(** * tests/flic/RsaOaepCtx *)

(* test_RsaOaepWrapper.py test_serialize, test_parse_with_extra,
   test_parse_as_none; test_RsaOaepImpl.py test_rsaoaepimpl_serialize_1 and _2;
   test_WrappedKey.py test_payload *)
Definition v_wrap : wrapper := mkWrap (mkHash 1 [5; 6; 7]) (Some (v_loc "ccnx:/a")) (Some 1) (Some [1; 2; 3; 4]).
Definition v_wrap_bytes : bytes :=
  [0; T_KEYID; 0; 7;  0; 1; 0; 3; 5; 6; 7;  0; T_KEYLINK; 0; 9;  0; 0; 0; 5; 0; 1; 0; 1; 97;
   0; T_HASH_ALG; 0; 1; 1;  0; T_WRAPPED_KEY; 0; 4; 1; 2; 3; 4].
Example v_wrapper : wrapper_wire v_wrap = Ok v_wrap_bytes /\ wrapper_parse v_wrap_bytes = Ok (Some v_wrap) /\
  wrapper_parse ([0; T_KEYNUM; 0; 1; 1] ++ v_wrap_bytes) = Ok (Some v_wrap) /\
  wrapper_parse [0; T_KEYNUM; 0; 1; 1] = Ok None.
Proof. run. Qed.
Example v_rsactx :
  vector ctx_tlv ctx_parse (CRsa (mkAead 55 [77; 88] (Some 1) None) None)
    [0; T_SECURITY_CTX; 0; 20;  0; T_RSAOAEP_CTX; 0; 16;  0; T_KEYNUM; 0; 1; 55;  0; T_NONCE; 0; 2; 77; 88;  0; T_AEADMode; 0; 1; 1] /\
  vector ctx_tlv ctx_parse (CRsa (mkAead 55 [77; 88] (Some 1) None) (Some v_wrap))
    ([0; T_SECURITY_CTX; 0; 57;  0; T_RSAOAEP_CTX; 0; 53;  0; T_KEYNUM; 0; 1; 55;  0; T_NONCE; 0; 2; 77; 88;  0; T_AEADMode; 0; 1; 1] ++
     v_wrap_bytes).
Proof. run. Qed.
Example v_wrapped : vector (octet_tlv T_WRAPPED_KEY) (octet_parse T_WRAPPED_KEY) [1; 2; 3; 4] [0; T_WRAPPED_KEY; 0; 4; 1; 2; 3; 4].
Proof. run. Qed.
(* ../aeadctx/test_AeadParameters.py test_with_optional *)
Example v_salts : to_bytes4 0x010203 = Ok [0; 1; 2; 3] /\ to_bytes4 0x0a0b = Ok [0; 0; 0x0a; 0x0b].
Proof. run. Qed.

(** * tests/flic *)

(* options with the defaults of ManifestTreeOptions *)
Definition v_opts (nm : option name) (ty : stype) (s : option (signer quick)) (mp dp : option name) (ml dl : option (list link))
    (degree : option Z) (max : Z) : opts quick :=
  mkOpts quick nm ty s mp dp ml dl None None None ENone false false false degree max.
Definition v_hashed : opts quick := v_opts (Some (uri "ccnx:/a")) Hashed None None None None None None 1500.
Definition v_sizes : opts quick :=
  mkOpts quick (Some (uri "ccnx:/a")) Hashed None None None None None None None None ENone true true false None 1500.
Definition v_build (o : opts quick) (src : source) (defs : option (list ncdef)) (nsize gsize : option Z) : res bytes :=
  m <- fst (fac_build quick (fun _ => []) o src defs nsize gsize None None None false 0%nat) ;; man_wire m.
Definition v_simple : bytes := [0; T_NODE; 0; 14;  0; T_HASH_GROUP; 0; 10;  0; T_PTRS; 0; 6;  0; 1; 0; 2; 1; 2].

(* test_ManifestFactory.py: the tests without encryption *)
Example v_factory :
  v_build v_hashed (SrcPtrs [v_h1]) None None None = Ok v_simple /\
  v_build v_hashed (SrcGroups [mkHG None (Some [v_h1])]) None None None = Ok v_simple /\
  v_build v_hashed (SrcNode (mkNode None [mkHG None (Some [v_h1])] None)) None None None = Ok v_simple /\
  v_build v_sizes (SrcPtrs [v_h1]) None (Some 20) (Some 16) =
    Ok [0; T_NODE; 0; 32;  0; T_NODE_DATA; 0; 5;  0; T_SUBTREE_SIZE; 0; 1; 20;  0; T_HASH_GROUP; 0; 19;
        0; T_GROUP_DATA; 0; 5;  0; T_SUBTREE_SIZE; 0; 1; 16;  0; T_PTRS; 0; 6;  0; 1; 0; 2; 1; 2] /\
  v_build v_sizes (SrcGroups [mkHG None (Some [v_h1])]) None (Some 20) (Some 16) =
    Ok [0; T_NODE; 0; 23;  0; T_NODE_DATA; 0; 5;  0; T_SUBTREE_SIZE; 0; 1; 20;  0; T_HASH_GROUP; 0; 10;
        0; T_PTRS; 0; 6;  0; 1; 0; 2; 1; 2] /\
  v_build v_hashed (SrcPtrs [v_h1]) (Some [mkNcDef (Some 7) (Some (SPrefix (Some (uri "ccnx:/a")) None None))]) None None =
    Ok [0; T_NODE; 0; 40;  0; T_NODE_DATA; 0; 22;  0; T_NCDEF; 0; 18;  0; T_NCID; 0; 1; 7;
        0; T_PrefixSchema; 0; 9;  0; 0; 0; 5; 0; 1; 0; 1; 97;  0; T_HASH_GROUP; 0; 10;  0; T_PTRS; 0; 6;  0; 1; 0; 2; 1; 2].
Proof. run. Qed.

(* tlvs/test_NodeData.py test_with_nc_defs_hashed *)
Example v_nc_defs :
  (x <- nctx_create quick (v_opts (Some (uri "ccnx:/root")) Hashed None None None (Some [v_loc "ccnx:/manifest"])
                           (Some [v_loc "ccnx:/data"]) None 1500) 1 ;;
   let d := mkND (Some 0x1234) None None [] (nctx_defs x) in
   w <- writes (nd_tlv d) ;; d' <- reads nd_parse w ;; w' <- writes (nd_tlv d') ;; Ok (w, beqb w w')) =
  Ok ([0; T_NODE_DATA; 0; 76;  0; T_SUBTREE_SIZE; 0; 2; 18; 52;
       0; T_NCDEF; 0; 33;  0; T_NCID; 0; 1; 1;  0; T_HashSchema; 0; 24;  0; T_LOCATORS; 0; 20;  0; T_LINK; 0; 16;
       0; 0; 0; 12; 0; 1; 0; 8; 109; 97; 110; 105; 102; 101; 115; 116;
       0; T_NCDEF; 0; 29;  0; T_NCID; 0; 1; 2;  0; T_HashSchema; 0; 20;  0; T_LOCATORS; 0; 16;  0; T_LINK; 0; 12;
       0; 0; 0; 8; 0; 1; 0; 4; 100; 97; 116; 97], true).
Proof. run. Qed.

(** * tests/flic/name_constructor *)

(* test_NameConstructorContext.py: what the context holds for the manifests
   and for the data, and whether they are the same *)
Definition v_ctx (ty : stype) (mp dp : option name) (ml dl : option (list link)) : res (Z * schema * (Z * schema)) :=
  x <- nctx_create quick (v_opts (Some (uri "ccnx:/a")) ty None mp dp ml dl None 1500) 1 ;;
  Ok ((im_nc (nx_man x), im_schema (nx_man x)), (im_nc (nx_data x), im_schema (nx_data x))).
Definition v_b := Some (uri "ccnx:/b"). Definition v_c := Some (uri "ccnx:/c"). Definition v_a := Some (uri "ccnx:/a").
Definition v_lb := Some [v_loc "ccnx:/b"]. Definition v_lc := Some [v_loc "ccnx:/c"]. Definition v_la := Some [v_loc "ccnx:/a"].
Example v_context_hashed :
  v_ctx Hashed None None None None = Ok ((1, SHash v_la None), (1, SHash v_la None)) /\
  v_ctx Hashed None None v_lb None = Ok ((1, SHash v_lb None), (2, SHash v_la None)) /\
  v_ctx Hashed None None None v_lc = Ok ((1, SHash v_la None), (2, SHash v_lc None)) /\
  v_ctx Hashed None None v_lb v_lc = Ok ((1, SHash v_lb None), (2, SHash v_lc None)).
Proof. run. Qed.
(* the names given to chunk 1 by the manifest constructor and to chunk 2 by the
   data constructor *)
Definition v_names (ty : stype) (mp dp : option name) : res (bool * option name * option name) :=
  x <- nctx_create quick (v_opts (Some (uri "ccnx:/a")) ty None mp dp None None None 1500) 1 ;;
  a <- impl_name (nx_man x) (Some 1) ;; b <- impl_name (nx_data x) (Some 2) ;;
  Ok (im_nc (nx_man x) =? im_nc (nx_data x), a, b).
Definition v_seg (m d : option name) : res (bool * option name * option name) :=
  match m, d with
  | Some m, Some d => m' <- append_manifest_id m 1 ;; d' <- append_chunk_id d 2 ;; Ok (false, Some m', Some d')
  | _, _ => Err ValueError
  end.
Example v_context_names :
  v_names Prefixed None None = Ok (true, v_a, v_a) /\ v_names Prefixed v_b None = Ok (false, v_b, v_a) /\
  v_names Prefixed None v_c = Ok (false, v_a, v_c) /\ v_names Prefixed v_b v_c = Ok (false, v_b, v_c) /\
  v_names Segmented None None = Err ValueError /\ v_names Segmented v_b None = v_seg v_b v_a /\
  v_names Segmented None v_c = v_seg v_a v_c /\ v_names Segmented v_b v_c = v_seg v_b v_c.
Proof. run. Qed.

(* test_HashSchemaImpl.py, test_PrefixSchemaImpl.py, test_SegmentedSchemaImpl.py
   test_get_name and test_chunk_data.  The tests also set a name and a signer in
   the options, which chunking does not use. *)
Definition v_impls : list impl :=
  [mkImpl 5 (SHash (Some [v_loc "ccnx:/foo/bar"]) None); mkImpl 5 (SPrefix (Some (uri "ccnx:/manifest/name")) None None);
   mkImpl 5 (SSeg (Some (uri "ccnx:/cat/dog")) (Some T_CHUNKID) None None)].
Example v_get_name : map (fun i => impl_name i (Some 7)) v_impls =
  [Ok None; Ok (Some (uri "ccnx:/manifest/name")); (n <- append_chunk_id (uri "ccnx:/cat/dog") 7 ;; Ok (Some n))].
Proof. run. Qed.
(* a number of bytes 0, 1, ..., 255, 0, ... *)
Definition v_data (from to : Z) : bytes := map (fun x => x mod 256) (zrange from to).
(* what chunk_data puts and returns, and what is expected: each payload with its
   name and final chunk id *)
Definition v_chunks (i : impl) : res (list packet * list cmeta * Z) :=
  match chunk_data quick v_hashed i 0 (v_data 0 2000) [] with
  | (Ok (meta, total, _), out) => Ok (out, meta, total)
  | (Err e, _) => Err e
  end.
Definition v_expect (l : list (option name * bytes * option Z)) : res (list packet * list cmeta * Z) :=
  ps <- mapM (fun '(n, b, f) => c <- create_data n (Some b) None f ;; create_content_object c) l ;;
  hs <- mapM (packet_hash (pr_sha quick)) ps ;;
  Ok (ps, map (fun '(k, (_, b, _), h) => mkCM k (zlen b) h) (combine (combine (zrange 0 (zlen l)) l) hs), 2000).
Definition v_numbered (s : string) (k : Z) : option name :=
  match append_chunk_id (uri s) k with Ok n => Some n | Err _ => None end.
Example v_chunks_hashed : v_chunks (mkImpl 5 (SHash (Some [v_loc "ccnx:/foo/bar"]) None)) =
  v_expect [(None, v_data 0 1479, None); (None, v_data 1479 2000, None)].
Proof. run. Qed.
Example v_chunks_prefix : v_chunks (mkImpl 5 (SPrefix (Some (uri "ccnx:/manifest/name")) None None)) =
  v_expect [(Some (uri "ccnx:/manifest/name"), v_data 0 1455, None); (Some (uri "ccnx:/manifest/name"), v_data 1455 2000, None)].
Proof. run. Qed.
Example v_chunks_segmented : v_chunks (mkImpl 5 (SSeg (Some (uri "ccnx:/cat/dog")) (Some T_CHUNKID) None None)) =
  v_expect [(v_numbered "ccnx:/cat/dog" 0, v_data 0 1447, None); (v_numbered "ccnx:/cat/dog" 1, v_data 1447 2000, Some 1)].
Proof. run. Qed.
Example v_expect_ok : match v_expect [(None, v_data 0 2000, None)] with Ok _ => true | Err _ => false end = true.
Proof. run. Qed.

(** * tests/flic/tree *)

(* test_ManifestIdFactory.py *)
Example v_ids : map (fun d => id_factory d 5) [1; 2; 3; 4] =
  map Ok [[0; 1; 2; 3; 4; 5]; [0; 2; 6; 14; 30; 62]; [0; 3; 12; 39; 120; 363]; [0; 4; 20; 84; 340; 1364]].
Proof. run. Qed.
Fixpoint v_draw (ids : list Z) (l : list Z) : list (res Z) :=
  match l with
  | [] => []
  | h :: l => match next_id ids h with
              | Ok (v, ids') => Ok v :: v_draw ids' l
              | Err e => Err e :: v_draw ids l
              end
  end.
Example v_next : (ids <- id_factory 4 5 ;; Ok (v_draw ids [0; 1; 2; 3; 4; 5; 1; 2; 3; 4; 5; 0; 1; 1; 1; 1])) =
  Ok (map Ok [0; 4; 20; 84; 340; 1364; 3; 19; 83; 339; 1363] ++ [Err OverflowError; Ok 2; Ok 1; Ok 0; Err OverflowError]).
Proof. run. Qed.

(* test_OptimizerResult.py: leaves and total *)
Example v_optres : opt_result exact_log 6 3 1 2 5 2 = Ok (mkOR 6 3 1 2 5 2 1 2) /\
  match opt_result exact_log 6 3 1 2 1 1 with Ok r => (or_leaf r, or_k r + or_leaf r) = (2, 3) | _ => False end.
Proof. run. Qed.

(* test_HashGroupBuilderPair.py *)
Definition v_pointers (p : pair) : res pair :=
  p <- pr_on_indirect (fun b => hb_append_indirect b (sha [7]) (Some 7)) p ;;
  p <- pr_on_indirect (fun b => hb_append_indirect b (sha [8]) (Some 6)) p ;;
  foldM (fun p i => pr_on_direct (fun b => hb_prepend_direct b (sha [6 - i]) (Some i)) p) p (zrange 0 7).
Example v_pair_one :
  let i := mkImpl 9 (SHash (Some [v_loc "ccnx:/e"]) None) in
  (p <- v_pointers (pr_new false 10 10) ;; pr_groups (mkNctx i i false) p true true None None) =
  Ok [mkHG (Some (mkGD (Some 34) None (Some 21) None (Some 9) None)) (Some (map (fun i => sha [i]) (zrange 0 9)))].
Proof. run. Qed.
Example v_pair_two :
  let m := mkImpl 3 (SSeg (Some (uri "ccnx:/g")) (Some T_MANIFESTID) None None) in
  let d := mkImpl 4 (SSeg (Some (uri "ccnx:/h")) (Some T_CHUNKID) None None) in
  (p <- v_pointers (pr_new true 10 10) ;; pr_groups (mkNctx m d true) p true true (Some 1) (Some 2)) =
  Ok [mkHG (Some (mkGD (Some 21) None (Some 21) None (Some 4) (Some 1))) (Some (map (fun i => sha [i]) (zrange 0 7)));
      mkHG (Some (mkGD (Some 13) None (Some 0) None (Some 3) (Some 2))) (Some (map (fun i => sha [i]) (zrange 7 9)))].
Proof. run. Qed.

(* test_TreeParameters.py: pointers per node for 1000 chunks of 1000 bytes in
   packets of 1500 bytes, without and with encryption, and the height.  The
   other parameters are those of the comment in the test. *)
Definition v_rasp (e : encryptor) : opts quick :=
  mkOpts quick (Some (uri "ccnx:/raspberry")) Hashed None None None None None None None None e false false false None 1500.
Definition v_params (e : encryptor) : res (Z * Z * Z * Z * Z * Z * Z) :=
  x <- nctx_create quick (v_rasp e) 1 ;;
  r <- fst (tree_params quick exact_log (fun _ => repeat 0 12) (mkFl 0 0) (v_rasp e) x 1000 1000000 0%nat) ;;
  Ok (or_p r, or_d r, or_m r, or_k r, or_leaf r, or_w r, or_height r).
Example v_unencrypted : v_params ENone = Ok (40, 15, 25, 1, 25, 15, 1).
Proof. run. Qed.
Example v_encrypted : (r <- v_params (EAead (mkAP (mkAK GCM (repeat 0 16)) 22 None None None)) ;; let '(p, _, _, _, _, _, _) := r in Ok p) = Ok 38.
Proof. run. Qed.

(* Traversal.preorder from a packet over what was put, with the constructors of
   the context: what is written, the number of writes, the number of packets
   visited, and len() of the packet buffer *)
Definition v_visit (x : nctx) (top : packet) (out : list packet) : res (bytes * Z * Z * Z) :=
  d <- mem_reader quick out ;;
  m <- foldM (mem_put quick) mem_new out ;;
  match preorder quick (mem_get d) true 50 [(im_nc (nx_man x), nx_man x); (im_nc (nx_data x), nx_data x)] top
          (tst_new quick None) with
  | (Ok _, s) => Ok (List.concat (ts_out s), zlen (ts_out s), ts_count s, mem_len m)
  | (Err e, _) => Err e
  end.

(* test_TreeBuilder.py test_binary_0_2_15, test_binary_1_2_15, test_nary_4_3_61:
   [n] chunks of one byte each, cut by a mock of the test which is a hashed
   schema here with room for one byte; the height, what is read, and the number
   of packets visited *)
Definition v_tree_builder (n p d m k w : Z) : res (Z * bytes * Z) :=
  match chunk_data quick (v_opts None Hashed None None None None None None 22) (mkImpl 0 (SHash None None)) 0 (v_data 0 n) [] with
  | (Err e, _) => Err e
  | (Ok (meta, _, _), out) =>
    x <- nctx_create quick v_hashed 1 ;;
    r <- opt_result exact_log (zlen meta) p d m k w ;;
    match build_top quick (fun _ => []) now0 (env_of quick v_hashed x meta r) (mkMst out 0) with
    | (Err e, _) => Err e
    | (Ok top, s) => '(b, _, c, _) <- v_visit x top (ms_out s) ;; Ok (or_height r, b, c)
    end
  end.
Example v_binary_0 : v_tree_builder 15 2 0 2 7 1 = Ok (3, v_data 0 15, 30).
Proof. run. Qed.
Example v_binary_1 : v_tree_builder 15 3 1 2 3 0 = Ok (2, v_data 0 15, 22).
Proof. run. Qed.
Example v_nary_4 : v_tree_builder 61 7 4 3 3 0 = Ok (2, v_data 0 61, 71).
Proof. run. Qed.

(** * tests/flic/test_ManifestTree.py, tests/apps *)

(* a whole build and what reading it back gives: whether the data are the same,
   the number of writes, and the number of different packets *)
Definition v_whole (o : opts quick) (data : bytes) : res (packet * list packet * (bool * Z * Z)) :=
  x <- nctx_create quick o 1 ;;
  match manifest_tree quick exact_log (fun _ => []) now0 o 1 data (mkMst [] 0) with
  | (Err e, _) => Err e
  | (Ok root, s) =>
    '(b, w, _, l) <- v_visit x root (ms_out s) ;; Ok (root, ms_out s, (beqb b data, w, l))
  end.
Definition v_counts (o : opts quick) (data : bytes) : res (bool * Z * Z) := '(_, _, c) <- v_whole o data ;; Ok c.
Definition v_signer : option (signer quick) := Some (@SRsa quick 7).

(* test_nary_1_2_14 and test_max_tree_degree, with other data of the same
   length *)
Definition v_degree (max : Z) : opts quick :=
  v_opts (Some (uri "ccnx:/example.com/manifest")) Hashed v_signer None None (Some [v_loc "ccnx:/x/y"]) None (Some 3) max.
Example v_nary_14 : v_counts (v_degree 250) (v_data 0 1674) = Ok (true, 8, 13).
Proof. run. Qed.
Example v_max_degree : v_counts (v_degree 400) (v_data 0 1674) = Ok (true, 5, 8).
Proof. run. Qed.

(* test_manifest_writer.py test_manifest *)
Definition v_writer : opts quick :=
  mkOpts quick (Some (uri "ccnx:/foo/bar")) Hashed v_signer None None (Some [v_loc "ccnx:/foo.bar"]) (Some [v_loc "ccnx:/foo.bar"])
    (Some (mkFl 1570755723 0)) None (Some (mkFl 1570755723 0)) ENone false false false (Some 4) 1500.
Example v_manifest_writer : v_counts v_writer (repeat 0 5000) = Ok (true, 4, 4).
Proof. run. Qed.

(* test_cli_utils.py; KdfInfo("0x010203") holds three bytes (core/TlvType.py:174-175) *)
Example v_cli :
  str_to_array (str "0x000102030405060708090a0b0c0d0e0f") = Ok (zrange 0 16) /\
  str_to_array (str "000102030405060708090a0b0c0d0e0f") = Ok (zrange 0 16) /\
  num_arg (str "77") = convert (Ok 77) /\ num_arg (str "0x77") = convert (Ok 0x77) /\
  int0 (str "0x010203") = Ok 0x010203 /\ info_arg (str "0x010203") = convert (Ok [1; 2; 3]).
Proof. run. Qed.

(* test_ManifestTree.py test_segmented_tree: the root and the top manifest with
   the digests written in the test *)
Definition unhex (s : string) : hashv := match from_hex (str s) with Ok b => sha b | Err _ => sha [] end.
Definition v_segmented (h : bytes -> bytes) : opts (prims_with h) :=
  mkOpts (prims_with h) (Some (uri "ccnx:/example.com/manifest")) Segmented (Some (@SRsa (prims_with h) 7))
    (Some (uri "ccnx:/manifest")) (Some (uri "ccnx:/data")) None None None None None ENone false false false (Some 3) 400.
Definition v_hexes (nc start : Z) (l : list string) : hgroup :=
  mkHG (Some (mkGD None None None None (Some nc) (Some start))) (Some (map unhex l)).
Definition v_root : manifest :=
  mkMan None (MNode (mkNode (Some (mkND None None None []
    [mkNcDef (Some 1) (Some (SSeg (Some (uri "ccnx:/manifest")) (Some T_MANIFESTID) None None));
     mkNcDef (Some 2) (Some (SSeg (Some (uri "ccnx:/data")) (Some T_CHUNKID) None None))]))
    [v_hexes 1 0 ["3008e4c3eeedecdf4dba55aaa51f92d3534a57bf9d232011fcd3eb0485ec871a"%string]] None)) None.
Definition v_top : manifest :=
  mkMan None (MNode (mkNode None
    [v_hexes 2 0 ["eb96aebb6f998228f6d7060f50385d6378121522b9e13cfe98e1a39ebff3f4cc"%string];
     v_hexes 1 1 ["10ca669f8505b78814a2b169a9b019b054e02a00ef6c98ac2d849ef20f0628a6"%string;
                  "7809dd876472714225eaa79a3bb959ab8927619b5bb795f314bc66c9b2e95d62"%string]] None)) None.
Definition body_manifest (p : packet) : res manifest :=
  match p_body p with BCO b => man_from_content b | BInterest _ => Err TypeError end.
Example v_segmented_read : v_counts (v_segmented (pr_sha quick)) (v_data 0 8000) = Ok (true, 23, 36).
Proof. run. Qed.
Example v_segmented_tree :
  match manifest_tree real exact_log (fun _ => []) now0 (v_segmented sha256) 1 (v_data 0 8000) (mkMst [] 0) with
  | (Err e, _) => Err e
  | (Ok root, s) =>
    top <- match nth_error (rev (ms_out s)) 1 with Some p => Ok p | None => Err IndexError end ;;
    r <- body_manifest root ;; t <- body_manifest top ;;
    Ok (r, body_name root, t, body_name top, zlen (ms_out s))
  end =
  (n <- append_manifest_id (uri "ccnx:/manifest") 0 ;;
   Ok (v_root, Some (uri "ccnx:/example.com/manifest"), v_top, Some n, 36)).
Proof. run. Qed.
