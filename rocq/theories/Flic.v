(* Model of /repo/ccnpy/flic/tlvs, /repo/ccnpy/flic/aeadctx/AeadData.py and
   /repo/ccnpy/flic/RsaOaepCtx/{RsaOaepWrapper,HashAlg,WrappedKey}.py: the
   manifest TLVs.  Conventions as in Core.v: [xxx_tlv] is the constructor,
   [xxx_parse] the classmethod parse. *)
From Coq Require Import ZArith List Bool.
From Verif Require Import Py Tlv Float Core.
Import ListNotations.
Open Scope Z_scope.

(* Apply a pure function to the result of a call (tags a parsed field). *)
Definition rmap {A B} (f : A -> B) (m : res A) : res B := a <- m ;; Ok (f a).

(* ---------------- type numbers: flic/tlvs/TlvNumbers.py:25-77 ----------- *)
Definition T_SECURITY_CTX : Z := 0x0000.
Definition T_NODE : Z := 0x0001.
Definition T_ENCRYPTED_NODE : Z := 0x0002.
Definition T_AUTH_TAG : Z := 0x0003.
Definition T_AEAD_CTX : Z := 0x0000.
Definition T_RSAOAEP_CTX : Z := 0x0001.
Definition T_NODE_DATA : Z := 0x0000.
Definition T_HASH_GROUP : Z := 0x0001.
Definition T_SUBTREE_SIZE : Z := 0x0002.
Definition T_SUBTREE_DIGEST : Z := 0x0003.
Definition T_NCDEF : Z := 0x0004.
Definition T_NCID : Z := 0x0005.
Definition T_LOCATORS : Z := 0x0006.
Definition T_PTRS : Z := 0x0007.
Definition T_GROUP_DATA : Z := 0x000B.
Definition T_HashSchema : Z := 0x0010.
Definition T_PrefixSchema : Z := 0x0011.
Definition T_SegmentedSchema : Z := 0x0012.
Definition T_ORG : Z := 0x0FFF.
Definition T_PROTOCOL_FLAGS : Z := 0x0001.
Definition T_SUFFIX_TYPE : Z := 0x0002.
Definition T_LINK : Z := 0x000D.
Definition T_LEAF_SIZE : Z := 0x0000.
Definition T_LEAF_DIGEST : Z := 0x0001.
Definition T_START_SEGMENT_ID : Z := 0x0004.
Definition T_KEYNUM : Z := 0x0000.
Definition T_NONCE : Z := 0x0001.
Definition T_AEADMode : Z := 0x0002.
Definition T_HASH_ALG : Z := 0x0003.
Definition T_WRAPPED_KEY : Z := 0x0004.
Definition T_KDF_DATA : Z := 0x0005.
Definition T_KDF_ALG : Z := 0x0006.
Definition T_KDF_INFO : Z := 0x0007.

(* ---------------- Pointers ---------------- *)

(* flic/tlvs/Pointers.py:42-48 *)
Definition ptrs_tlv (hs : list hashv) : res tlv :=
  l <- mapM hashv_tlv hs ;; tlv_make T_PTRS (concat_wires l).
(* flic/tlvs/Pointers.py:81-84: the loop body, with HashValue.deserialize split
   into Tlv.deserialize (in the loop) and HashValue.parse *)
Definition ptrs_step (acc : list hashv) (t : tlv) : res (list hashv) :=
  h <- hashv_parse t ;; Ok (acc ++ [h]).
(* flic/tlvs/Pointers.py:74-85 *)
Definition ptrs_parse (t : tlv) : res (list hashv) :=
  _ <- guard (t_type t =? T_PTRS) ValueError ;;
  hs <- tlv_foreach ptrs_step [] (t_val t) ;;
  _ <- ptrs_tlv hs ;;
  Ok hs.

(* ---------------- GroupData ---------------- *)

(* flic/tlvs/GroupData.py:38-67 *)
Record gdata := mkGD
  { gd_subtree_size : option Z; gd_subtree_digest : option hashv;
    gd_leaf_size : option Z; gd_leaf_digest : option hashv;
    gd_nc_id : option Z; gd_start : option Z }.
(* flic/tlvs/GroupData.py:69-73 *)
Definition gd_tlv (g : gdata) : res tlv :=
  a <- wire_opt (int_tlv T_SUBTREE_SIZE) (gd_subtree_size g) ;;
  b <- wire_opt (htt_tlv T_SUBTREE_DIGEST) (gd_subtree_digest g) ;;
  c <- wire_opt (int_tlv T_LEAF_SIZE) (gd_leaf_size g) ;;
  d <- wire_opt (htt_tlv T_LEAF_DIGEST) (gd_leaf_digest g) ;;
  e <- wire_opt (int_tlv T_NCID) (gd_nc_id g) ;;
  f <- wire_opt (int_tlv T_START_SEGMENT_ID) (gd_start g) ;;
  tlv_make T_GROUP_DATA (flatten [a; b; c; d; e; f]).
(* parsed fields of a GroupData *)
Inductive gdv := GInt (n : Z) | GHash (h : hashv).
Definition gdv_int (o : option gdv) : option Z :=
  match o with Some (GInt n) => Some n | _ => None end.
Definition gdv_hash (o : option gdv) : option hashv :=
  match o with Some (GHash h) => Some h | _ => None end.
(* flic/tlvs/GroupData.py:112-117 *)
Definition gd_table (ty : Z) : option (tlv -> res gdv) :=
  if ty =? T_SUBTREE_SIZE then Some (fun t => rmap GInt (int_parse T_SUBTREE_SIZE t))
  else if ty =? T_SUBTREE_DIGEST then Some (fun t => rmap GHash (htt_parse T_SUBTREE_DIGEST t))
  else if ty =? T_LEAF_SIZE then Some (fun t => rmap GInt (int_parse T_LEAF_SIZE t))
  else if ty =? T_LEAF_DIGEST then Some (fun t => rmap GHash (htt_parse T_LEAF_DIGEST t))
  else if ty =? T_NCID then Some (fun t => rmap GInt (int_parse T_NCID t))
  else if ty =? T_START_SEGMENT_ID then Some (fun t => rmap GInt (int_parse T_START_SEGMENT_ID t))
  else None.
(* cls( **values ): GroupData.py:120 *)
Definition gd_of (vs : list (Z * gdv)) : gdata :=
  mkGD (gdv_int (lookup T_SUBTREE_SIZE vs)) (gdv_hash (lookup T_SUBTREE_DIGEST vs))
       (gdv_int (lookup T_LEAF_SIZE vs)) (gdv_hash (lookup T_LEAF_DIGEST vs))
       (gdv_int (lookup T_NCID vs)) (gdv_int (lookup T_START_SEGMENT_ID vs)).
(* flic/tlvs/GroupData.py:108-120 *)
Definition gd_parse (t : tlv) : res gdata :=
  vs <- auto_parse T_GROUP_DATA gd_table t ;;
  let g := gd_of vs in
  _ <- gd_tlv g ;; Ok g.

(* ---------------- HashGroup ---------------- *)

(* flic/tlvs/HashGroup.py:29-39 *)
Record hgroup := mkHG { hg_data : option gdata; hg_ptrs : option (list hashv) }.
Definition hg_tlv (h : hgroup) : res tlv :=
  a <- wire_opt gd_tlv (hg_data h) ;;
  b <- wire_opt ptrs_tlv (hg_ptrs h) ;;
  tlv_make T_HASH_GROUP (flatten [a; b]).
Inductive hgv := HGd (g : gdata) | HPtrs (l : list hashv).
Definition hgv_gd (o : option hgv) : option gdata :=
  match o with Some (HGd g) => Some g | _ => None end.
Definition hgv_ptrs (o : option hgv) : option (list hashv) :=
  match o with Some (HPtrs l) => Some l | _ => None end.
(* flic/tlvs/HashGroup.py:67-70 *)
Definition hg_table (ty : Z) : option (tlv -> res hgv) :=
  if ty =? T_GROUP_DATA then Some (fun t => rmap HGd (gd_parse t))
  else if ty =? T_PTRS then Some (fun t => rmap HPtrs (ptrs_parse t))
  else None.
Definition hg_of (vs : list (Z * hgv)) : hgroup :=
  mkHG (hgv_gd (lookup T_GROUP_DATA vs)) (hgv_ptrs (lookup T_PTRS vs)).
(* flic/tlvs/HashGroup.py:65-71 *)
Definition hg_parse (t : tlv) : res hgroup :=
  vs <- auto_parse T_HASH_GROUP hg_table t ;;
  let h := hg_of vs in
  _ <- hg_tlv h ;; Ok h.

(* ---------------- Locator, Locators ---------------- *)

(* flic/tlvs/Locator.py:47-61 *)
Definition loc_tlv (l : link) : res tlv :=
  _ <- guard (negb (is_none (l_name l))) ValueError ;;
  w <- link_wire l ;; tlv_make T_LINK w.
(* flic/tlvs/Locator.py:78-84 *)
Definition loc_parse (t : tlv) : res link :=
  _ <- guard (t_type t =? T_LINK) CannotParseError ;;
  l <- link_deserialize (t_val t) ;;
  _ <- loc_tlv l ;; Ok l.
(* flic/tlvs/Locators.py:54-66 *)
Definition locs_tlv (ls : list link) : res tlv :=
  _ <- guard (negb (zlen ls =? 0)) RuntimeError ;;
  l <- mapM loc_tlv ls ;; tlv_make T_LOCATORS (concat_wires l).
(* flic/tlvs/Locators.py:105-113 *)
Definition locs_step (acc : list link) (t : tlv) : res (list link) :=
  l <- loc_parse t ;; Ok (acc ++ [l]).
(* flic/tlvs/Locators.py:98-115 *)
Definition locs_parse (t : tlv) : res (list link) :=
  _ <- guard (t_type t =? T_LOCATORS) RuntimeError ;;
  ls <- tlv_foreach locs_step [] (t_val t) ;;
  _ <- locs_tlv ls ;; Ok ls.

(* ---------------- Name constructor schemas ---------------- *)

(* flic/tlvs/SuffixComponentType.py:32-37 *)
Definition suffix_tlv (n : Z) : res tlv :=
  _ <- guard ((0 <=? n) && (n <=? 0xFFFF)) ValueError ;;
  create_uint16 T_SUFFIX_TYPE n.
(* flic/tlvs/SuffixComponentType.py:54-59 *)
Definition suffix_parse (t : tlv) : res Z :=
  _ <- guard (t_type t =? T_SUFFIX_TYPE) CannotParseError ;;
  let n := value_as_number t in
  _ <- suffix_tlv n ;; Ok n.
(* flic/tlvs/ProtocolFlags.py:21-28 *)
Definition flags_tlv (b : bytes) : res tlv := octet_tlv T_PROTOCOL_FLAGS b.
Definition flags_parse (t : tlv) : res bytes := octet_parse T_PROTOCOL_FLAGS t.

(* flic/tlvs/NcSchema.py:195-283: the three concrete schemas.  A missing field
   is allowed for all fields (parse passes None on). *)
Inductive schema :=
| SHash (locs : option (list link)) (flags : option bytes)
| SPrefix (nm : option name) (locs : option (list link)) (flags : option bytes)
| SSeg (nm : option name) (suffix : option Z) (locs : option (list link)) (flags : option bytes).

(* flic/tlvs/NcSchema.py:55-58: every schema constructor first runs
   Tlv(class_type, flags), which calls list.extend on the flags object; that
   object is not iterable, so any schema with flags raises TypeError.  The
   constructors then run up the class chain (96, 152, 228), each time building
   a Tlv; only the last (largest) one is kept and modelled. *)
Definition schema_tlv (s : schema) : res tlv :=
  match s with
  | SHash ls fl =>
    _ <- guard (is_none fl) TypeError ;;
    l <- wire_opt locs_tlv ls ;;
    tlv_make T_HashSchema (flatten [l])
  | SPrefix nm ls fl =>
    _ <- guard (is_none fl) TypeError ;;
    n <- wire_opt name_tlv nm ;;
    l <- wire_opt locs_tlv ls ;;
    tlv_make T_PrefixSchema (flatten [n; l])
  | SSeg nm sx ls fl =>
    _ <- guard (is_none fl) TypeError ;;
    n <- wire_opt name_tlv nm ;;
    x <- wire_opt suffix_tlv sx ;;
    l <- wire_opt locs_tlv ls ;;
    tlv_make T_SegmentedSchema (flatten [n; x; l])
  end.
Inductive sv := SvName (n : name) | SvSuffix (n : Z) | SvLocs (l : list link) | SvFlags (b : bytes).
Definition sv_name (o : option sv) : option name := match o with Some (SvName n) => Some n | _ => None end.
Definition sv_suffix (o : option sv) : option Z := match o with Some (SvSuffix n) => Some n | _ => None end.
Definition sv_locs (o : option sv) : option (list link) := match o with Some (SvLocs n) => Some n | _ => None end.
Definition sv_flags (o : option sv) : option bytes := match o with Some (SvFlags n) => Some n | _ => None end.
(* flic/tlvs/NcSchema.py:118-123 *)
Definition hash_table (ty : Z) : option (tlv -> res sv) :=
  if ty =? T_LOCATORS then Some (fun t => rmap SvLocs (locs_parse t))
  else if ty =? T_PROTOCOL_FLAGS then Some (fun t => rmap SvFlags (flags_parse t))
  else None.
(* flic/tlvs/NcSchema.py:165-171 *)
Definition prefix_table (ty : Z) : option (tlv -> res sv) :=
  if ty =? T_NAME then Some (fun t => rmap SvName (name_parse t))
  else if ty =? T_LOCATORS then Some (fun t => rmap SvLocs (locs_parse t))
  else if ty =? T_PROTOCOL_FLAGS then Some (fun t => rmap SvFlags (flags_parse t))
  else None.
(* flic/tlvs/NcSchema.py:239-245 *)
Definition seg_table (ty : Z) : option (tlv -> res sv) :=
  if ty =? T_NAME then Some (fun t => rmap SvName (name_parse t))
  else if ty =? T_SUFFIX_TYPE then Some (fun t => rmap SvSuffix (suffix_parse t))
  else if ty =? T_LOCATORS then Some (fun t => rmap SvLocs (locs_parse t))
  else if ty =? T_PROTOCOL_FLAGS then Some (fun t => rmap SvFlags (flags_parse t))
  else None.
Definition hash_schema_parse (t : tlv) : res schema :=
  vs <- auto_parse T_HashSchema hash_table t ;;
  let s := SHash (sv_locs (lookup T_LOCATORS vs)) (sv_flags (lookup T_PROTOCOL_FLAGS vs)) in
  _ <- schema_tlv s ;; Ok s.
Definition prefix_schema_parse (t : tlv) : res schema :=
  vs <- auto_parse T_PrefixSchema prefix_table t ;;
  let s := SPrefix (sv_name (lookup T_NAME vs)) (sv_locs (lookup T_LOCATORS vs))
             (sv_flags (lookup T_PROTOCOL_FLAGS vs)) in
  _ <- schema_tlv s ;; Ok s.
Definition seg_schema_parse (t : tlv) : res schema :=
  vs <- auto_parse T_SegmentedSchema seg_table t ;;
  let s := SSeg (sv_name (lookup T_NAME vs)) (sv_suffix (lookup T_SUFFIX_TYPE vs))
             (sv_locs (lookup T_LOCATORS vs)) (sv_flags (lookup T_PROTOCOL_FLAGS vs)) in
  _ <- schema_tlv s ;; Ok s.
(* flic/tlvs/NcSchema.py:37-48: try the classes in turn, on CannotParseError
   go on with the next *)
Definition try_else {A} (m k : res A) : res A :=
  match m with Err CannotParseError => k | _ => m end.
Definition schema_parse (t : tlv) : res schema :=
  try_else (prefix_schema_parse t)
    (try_else (seg_schema_parse t)
      (try_else (hash_schema_parse t) (Err CannotParseError))).

(* flic/tlvs/NcDef.py:36-40; parse may leave either field out *)
Record ncdef := mkNcDef { nd_id : option Z; nd_schema : option schema }.
Definition ncdef_tlv (d : ncdef) : res tlv :=
  a <- wire_opt (int_tlv T_NCID) (nd_id d) ;;
  b <- wire_opt schema_tlv (nd_schema d) ;;
  tlv_make T_NCDEF (flatten [a; b]).
(* flic/tlvs/NcDef.py:69-78 *)
Definition ncdef_step (d : ncdef) (t : tlv) : res ncdef :=
  if t_type t =? T_NCID then
    _ <- guard (is_none (nd_id d)) AssertionError ;;
    n <- int_parse T_NCID t ;; Ok (mkNcDef (Some n) (nd_schema d))
  else
    _ <- guard (is_none (nd_schema d)) AssertionError ;;
    s <- schema_parse t ;; Ok (mkNcDef (nd_id d) (Some s)).
(* flic/tlvs/NcDef.py:59-80 *)
Definition ncdef_parse (t : tlv) : res ncdef :=
  _ <- guard (t_type t =? T_NCDEF) CannotParseError ;;
  d <- tlv_foreach ncdef_step (mkNcDef None None) (t_val t) ;;
  _ <- ncdef_tlv d ;; Ok d.

(* ---------------- Vendor ---------------- *)

(* flic/tlvs/Vendor.py:29-43 *)
Record vendor := mkVendor { v_pen : Z; v_payload : bytes }.
Definition vendor_tlv (v : vendor) : res tlv :=
  _ <- guard ((0 <=? v_pen v) && (v_pen v <=? 0xFFFFFF)) ValueError ;;
  a <- uint24_to_array (v_pen v) ;;
  p <- array_B (v_payload v) ;;
  tlv_make T_ORG (a ++ p).
(* flic/tlvs/Vendor.py:65-76; the test of line 70 compares the length of the
   whole TLV (at least 4) with 3 *)
Definition vendor_parse (t : tlv) : res vendor :=
  _ <- guard (t_type t =? T_ORG) CannotParseError ;;
  _ <- guard (negb (tlv_len t <? 3)) ValueError ;;
  let v := mkVendor (array_to_number (ztake 3 (t_val t))) (zskip 3 (t_val t)) in
  _ <- vendor_tlv v ;; Ok v.

(* ---------------- NodeData ---------------- *)

(* flic/tlvs/NodeData.py:40-74.  vendors = None and [] are both []. *)
Record ndata := mkND
  { nd_size : option Z; nd_digest : option hashv; nd_locators : option (list link);
    nd_vendors : list vendor; nd_ncdefs : list ncdef }.
(* flic/tlvs/NodeData.py:76-92 *)
Definition nd_tlv (d : ndata) : res tlv :=
  a <- wire_opt (int_tlv T_SUBTREE_SIZE) (nd_size d) ;;
  b <- wire_opt (htt_tlv T_SUBTREE_DIGEST) (nd_digest d) ;;
  c <- wire_opt locs_tlv (nd_locators d) ;;
  ns <- mapM ncdef_tlv (nd_ncdefs d) ;;
  vs <- mapM vendor_tlv (nd_vendors d) ;;
  tlv_make T_NODE_DATA
    (flatten [a; b; c; Some (concat_wires ns); Some (concat_wires vs)]).
(* flic/tlvs/NodeData.py:131-149 *)
Definition nd_step (d : ndata) (t : tlv) : res ndata :=
  if t_type t =? T_SUBTREE_SIZE then
    _ <- guard (is_none (nd_size d)) AssertionError ;;
    x <- int_parse T_SUBTREE_SIZE t ;;
    Ok (mkND (Some x) (nd_digest d) (nd_locators d) (nd_vendors d) (nd_ncdefs d))
  else if t_type t =? T_SUBTREE_DIGEST then
    _ <- guard (is_none (nd_digest d)) AssertionError ;;
    x <- htt_parse T_SUBTREE_DIGEST t ;;
    Ok (mkND (nd_size d) (Some x) (nd_locators d) (nd_vendors d) (nd_ncdefs d))
  else if t_type t =? T_LOCATORS then
    _ <- guard (is_none (nd_locators d)) AssertionError ;;
    x <- locs_parse t ;;
    Ok (mkND (nd_size d) (nd_digest d) (Some x) (nd_vendors d) (nd_ncdefs d))
  else if t_type t =? T_NCDEF then
    x <- ncdef_parse t ;;
    Ok (mkND (nd_size d) (nd_digest d) (nd_locators d) (nd_vendors d) (nd_ncdefs d ++ [x]))
  else if t_type t =? T_ORG then
    x <- vendor_parse t ;;
    Ok (mkND (nd_size d) (nd_digest d) (nd_locators d) (nd_vendors d ++ [x]) (nd_ncdefs d))
  else Err ParseError.
(* flic/tlvs/NodeData.py:121-152 *)
Definition nd_parse (t : tlv) : res ndata :=
  _ <- guard (t_type t =? T_NODE_DATA) CannotParseError ;;
  d <- tlv_foreach nd_step (mkND None None None [] []) (t_val t) ;;
  _ <- nd_tlv d ;; Ok d.

(* ---------------- Node ---------------- *)

(* flic/tlvs/Node.py:79-99; n_pad is the pad_length argument *)
Record node := mkNode { n_data : option ndata; n_groups : list hgroup; n_pad : option Z }.
(* flic/tlvs/Node.py:101-110 *)
Definition node_value (n : node) : res bytes :=
  a <- wire_opt nd_tlv (n_data n) ;;
  gs <- mapM hg_tlv (n_groups n) ;;
  let value := flatten [a; Some (concat_wires gs)] in
  match n_pad n with
  | None => Ok value
  | Some pl =>
    let deficit := pl - (4 + zlen value) in
    if 4 <=? deficit then
      p <- pad_tlv (deficit - 4) ;;
      Ok (flatten [a; Some (concat_wires gs); Some (tlv_wire p)])
    else Ok value
  end.
(* flic/tlvs/Node.py:93-99, 110 *)
Definition node_tlv (n : node) : res tlv :=
  _ <- guard (negb (zlen (n_groups n) =? 0)) TypeError ;;
  v <- node_value n ;;
  tlv_make T_NODE v.
(* flic/tlvs/Node.py:185-200 *)
Definition node_step (s : option ndata * list hgroup) (t : tlv)
  : res (option ndata * list hgroup) :=
  if t_type t =? T_NODE_DATA then
    _ <- guard (is_none (fst s)) AssertionError ;;
    d <- nd_parse t ;; Ok (Some d, snd s)
  else if t_type t =? T_HASH_GROUP then
    h <- hg_parse t ;; Ok (fst s, snd s ++ [h])
  else if t_type t =? T_PAD then Ok s
  else Err ParseError.
(* flic/tlvs/Node.py:173-202 *)
Definition node_parse (t : tlv) : res node :=
  _ <- guard (t_type t =? T_NODE) CannotParseError ;;
  s <- tlv_foreach node_step (None, []) (t_val t) ;;
  let n := mkNode (fst s) (snd s) None in
  _ <- node_tlv n ;; Ok n.

(* flic/tlvs/Node.py:39-43 *)
Record hiv := mkHiv { hi_nc : Z; hi_hash : hashv; hi_seg : option Z }.
(* flic/tlvs/Node.py:69-73 *)
Definition segment_id (g : gdata) (offset : Z) : option Z :=
  match gd_start g with Some s => Some (s + offset) | None => None end.
(* flic/tlvs/Node.py:51-67: what repeated __next__ yields for one group, from
   pointer index i on, and the exception that ends it, if any *)
Fixpoint group_iter (gd : option gdata) (i : Z) (ps : list hashv) : list hiv * option exn :=
  match ps with
  | [] => ([], None)
  | p :: ps' =>
    match gd with
    | None => ([], Some ValueError)
    | Some g =>
      match gd_nc_id g with
      | None => ([], Some ValueError)
      | Some nc =>
        let '(r, e) := group_iter gd (i + 1) ps' in
        (mkHiv nc p (segment_id g i) :: r, e)
      end
    end
  end.
(* flic/tlvs/Node.py:45-67 for a list of groups: values yielded, then the
   exception, if any.  A group without pointers makes len(None) raise
   TypeError.  Simplified: Python's recursion limit (a run of about a thousand
   groups with empty pointer lists would exceed it) is not modelled. *)
Fixpoint node_iter (gs : list hgroup) : list hiv * option exn :=
  match gs with
  | [] => ([], None)
  | g :: gs' =>
    match hg_ptrs g with
    | None => ([], Some TypeError)
    | Some ps =>
      let '(r, e) := group_iter (hg_data g) 0 ps in
      match e with
      | Some _ => (r, e)
      | None => let '(r', e') := node_iter gs' in (r ++ r', e')
      end
    end
  end.
(* flic/tlvs/Node.py:162-171 *)
Fixpoint node_hash_values (gs : list hgroup) : res (list hashv) :=
  match gs with
  | [] => Ok []
  | g :: gs' =>
    match hg_ptrs g with
    | None => Err TypeError
    | Some ps => r <- node_hash_values gs' ;; Ok (ps ++ r)
    end
  end.

(* ---------------- Security contexts ---------------- *)

(* flic/tlvs/KdfData.py:43-52 *)
Record kdf := mkKdf { k_alg : Z; k_info : option bytes }.
Definition kdf_tlv (k : kdf) : res tlv :=
  a <- int_tlv T_KDF_ALG (k_alg k) ;;
  i <- wire_opt (octet_tlv T_KDF_INFO) (k_info k) ;;
  tlv_make T_KDF_DATA (flatten [Some (tlv_wire a); i]).
Inductive kv := KInt (n : Z) | KOct (b : bytes).
Definition kv_int (o : option kv) : option Z := match o with Some (KInt n) => Some n | _ => None end.
Definition kv_oct (o : option kv) : option bytes := match o with Some (KOct n) => Some n | _ => None end.
(* flic/tlvs/KdfData.py:79-80 *)
Definition kdf_table (ty : Z) : option (tlv -> res kv) :=
  if ty =? T_KDF_ALG then Some (fun t => rmap KInt (int_parse T_KDF_ALG t))
  else if ty =? T_KDF_INFO then Some (fun t => rmap KOct (octet_parse T_KDF_INFO t))
  else None.
(* flic/tlvs/KdfData.py:74-83 *)
Definition kdf_parse (t : tlv) : res kdf :=
  vs <- auto_parse T_KDF_DATA kdf_table t ;;
  match kv_int (lookup T_KDF_ALG vs) with
  | None => Err AssertionError
  | Some a =>
    let k := mkKdf a (kv_oct (lookup T_KDF_INFO vs)) in
    _ <- kdf_tlv k ;; Ok k
  end.

(* flic/aeadctx/AeadData.py:36-48.  The mode may be missing after parse. *)
Record aead := mkAead
  { a_keynum : Z; a_nonce : bytes; a_mode : option Z; a_kdf : option kdf }.
Definition aead_wire (a : aead) : res bytes :=
  k <- int_tlv T_KEYNUM (a_keynum a) ;;
  n <- octet_tlv T_NONCE (a_nonce a) ;;
  m <- wire_opt (int_tlv T_AEADMode) (a_mode a) ;;
  d <- wire_opt kdf_tlv (a_kdf a) ;;
  Ok (flatten [Some (tlv_wire k); Some (tlv_wire n); m; d]).
Inductive av := AInt (n : Z) | AOct (b : bytes) | AKdf (k : kdf).
Definition av_int (o : option av) : option Z := match o with Some (AInt n) => Some n | _ => None end.
Definition av_oct (o : option av) : option bytes := match o with Some (AOct n) => Some n | _ => None end.
Definition av_kdf (o : option av) : option kdf := match o with Some (AKdf n) => Some n | _ => None end.
(* flic/aeadctx/AeadData.py:90-95 *)
Definition aead_table (ty : Z) : option (tlv -> res av) :=
  if ty =? T_KEYNUM then Some (fun t => rmap AInt (int_parse T_KEYNUM t))
  else if ty =? T_NONCE then Some (fun t => rmap AOct (octet_parse T_NONCE t))
  else if ty =? T_AEADMode then Some (fun t => rmap AInt (int_parse T_AEADMode t))
  else if ty =? T_KDF_DATA then Some (fun t => rmap AKdf (kdf_parse t))
  else None.
(* flic/aeadctx/AeadData.py:81-96 with 44-45: KeyNumber(None) compares None
   with an int (TypeError), Nonce(None) is refused (ValueError) *)
Definition aead_parse (b : bytes) : res aead :=
  vs <- auto_value_parse aead_table true b ;;
  match av_int (lookup T_KEYNUM vs), av_oct (lookup T_NONCE vs) with
  | None, _ => Err TypeError
  | _, None => Err ValueError
  | Some k, Some n =>
    let a := mkAead k n (av_int (lookup T_AEADMode vs)) (av_kdf (lookup T_KDF_DATA vs)) in
    _ <- aead_wire a ;; Ok a
  end.

(* flic/RsaOaepCtx/RsaOaepWrapper.py:45-58 *)
Record wrapper := mkWrap
  { w_keyid : hashv; w_keylink : option link; w_hashalg : option Z; w_key : option bytes }.
Definition wrapper_wire (w : wrapper) : res bytes :=
  a <- htt_tlv T_KEYID (w_keyid w) ;;
  b <- wire_opt keylink_tlv (w_keylink w) ;;
  c <- wire_opt (int_tlv T_HASH_ALG) (w_hashalg w) ;;
  d <- wire_opt (octet_tlv T_WRAPPED_KEY) (w_key w) ;;
  Ok (flatten [Some (tlv_wire a); b; c; d]).
Inductive wv := WHash (h : hashv) | WLink (l : link) | WInt (n : Z) | WOct (b : bytes).
Definition wv_hash (o : option wv) : option hashv := match o with Some (WHash n) => Some n | _ => None end.
Definition wv_link (o : option wv) : option link := match o with Some (WLink n) => Some n | _ => None end.
Definition wv_int (o : option wv) : option Z := match o with Some (WInt n) => Some n | _ => None end.
Definition wv_oct (o : option wv) : option bytes := match o with Some (WOct n) => Some n | _ => None end.
(* flic/RsaOaepCtx/RsaOaepWrapper.py:97-102 *)
Definition wrapper_table (ty : Z) : option (tlv -> res wv) :=
  if ty =? T_KEYID then Some (fun t => rmap WHash (htt_parse T_KEYID t))
  else if ty =? T_KEYLINK then Some (fun t => rmap WLink (keylink_parse t))
  else if ty =? T_HASH_ALG then Some (fun t => rmap WInt (int_parse T_HASH_ALG t))
  else if ty =? T_WRAPPED_KEY then Some (fun t => rmap WOct (octet_parse T_WRAPPED_KEY t))
  else None.
(* flic/RsaOaepCtx/RsaOaepWrapper.py:89-112 with 52 *)
Definition wrapper_parse (b : bytes) : res (option wrapper) :=
  vs <- auto_value_parse wrapper_table true b ;;
  match vs with
  | [] => Ok None
  | _ :: _ =>
    match wv_hash (lookup T_KEYID vs) with
    | None => Err AssertionError
    | Some k =>
      let w := mkWrap k (wv_link (lookup T_KEYLINK vs)) (wv_int (lookup T_HASH_ALG vs))
                 (wv_oct (lookup T_WRAPPED_KEY vs)) in
      _ <- wrapper_wire w ;; Ok (Some w)
    end
  end.

(* flic/tlvs/AeadCtx.py:41-50, flic/tlvs/RsaOaepCtx.py:47-56 *)
Inductive secctx :=
| CAead (a : aead)
| CRsa (a : aead) (w : option wrapper).
Definition ctx_aead (c : secctx) : aead := match c with CAead a => a | CRsa a _ => a end.
Definition ctx_tlv (c : secctx) : res tlv :=
  match c with
  | CAead a =>
    b <- aead_wire a ;;
    i <- tlv_make T_AEAD_CTX b ;;
    tlv_make T_SECURITY_CTX (tlv_wire i)
  | CRsa a w =>
    b <- aead_wire a ;;
    x <- optM wrapper_wire w ;;
    i <- tlv_make T_RSAOAEP_CTX (flatten [Some b; x]) ;;
    tlv_make T_SECURITY_CTX (tlv_wire i)
  end.
(* flic/tlvs/SecurityCtx.py:48-66, AeadCtx.py:63-74, RsaOaepCtx.py:69-84 *)
Definition ctx_parse (t : tlv) : res secctx :=
  _ <- guard (t_type t =? T_SECURITY_CTX) CannotParseError ;;
  i <- tlv_deserialize (t_val t) ;;
  if t_type i =? T_AEAD_CTX then
    a <- aead_parse (t_val i) ;;
    _ <- ctx_tlv (CAead a) ;; Ok (CAead a)
  else if t_type i =? T_RSAOAEP_CTX then
    a <- aead_parse (t_val i) ;;
    w <- wrapper_parse (t_val i) ;;
    _ <- ctx_tlv (CRsa a w) ;; Ok (CRsa a w)
  else Err ParseError.

(* ---------------- Manifest ---------------- *)

(* flic/tlvs/EncryptedNode.py:19-28 *)
Inductive mnode := MNode (n : node) | MEnc (b : bytes).
Definition mnode_tlv (n : mnode) : res tlv :=
  match n with MNode n => node_tlv n | MEnc b => octet_tlv T_ENCRYPTED_NODE b end.
(* flic/tlvs/Manifest.py:50-69; a manifest without node (ValueError) is not a
   value of this type *)
Record manifest := mkMan { m_ctx : option secctx; m_node : mnode; m_tag : option bytes }.
Definition man_wire (m : manifest) : res bytes :=
  c <- wire_opt ctx_tlv (m_ctx m) ;;
  n <- mnode_tlv (m_node m) ;;
  a <- wire_opt (octet_tlv T_AUTH_TAG) (m_tag m) ;;
  Ok (flatten [c; Some (tlv_wire n); a]).
(* flic/tlvs/Manifest.py:91-106: a repeated AuthTag overwrites *)
Definition man_state : Type := option secctx * option mnode * option bytes.
Definition man_step (s : man_state) (t : tlv) : res man_state :=
  let '(c, n, a) := s in
  if t_type t =? T_SECURITY_CTX then
    _ <- guard (is_none c) AssertionError ;;
    x <- ctx_parse t ;; Ok (Some x, n, a)
  else if t_type t =? T_NODE then
    _ <- guard (is_none n) AssertionError ;;
    x <- node_parse t ;; Ok (c, Some (MNode x), a)
  else if t_type t =? T_ENCRYPTED_NODE then
    _ <- guard (is_none n) AssertionError ;;
    x <- octet_parse T_ENCRYPTED_NODE t ;; Ok (c, Some (MEnc x), a)
  else if t_type t =? T_AUTH_TAG then
    x <- octet_parse T_AUTH_TAG t ;; Ok (c, n, Some x)
  else Err ValueError.
(* flic/tlvs/Manifest.py:82-108 *)
Definition man_deserialize (b : bytes) : res manifest :=
  s <- tlv_foreach man_step (None, None, None) b ;;
  let '(c, n, a) := s in
  match n with
  | None => Err ValueError
  | Some x =>
    let m := mkMan c x a in
    _ <- man_wire m ;; Ok m
  end.
(* flic/tlvs/Manifest.py:126-127 *)
Definition is_encrypted (m : manifest) : bool :=
  match m_node m with MEnc _ => true | MNode _ => false end.
(* flic/tlvs/Manifest.py:140-149 *)
Definition man_hash_values (m : manifest) : list hiv * option exn :=
  match m_node m with
  | MNode n => node_iter (n_groups n)
  | MEnc _ => ([], Some TypeError)
  end.
(* flic/tlvs/Manifest.py:129-134 *)
Definition man_content (m : manifest) (n : option name) (expiry : option fl) : res content :=
  w <- man_wire m ;;
  _ <- payload_tlv w ;;
  let c := mkCO n (Some PT_MANIFEST) (Some w) expiry None in
  _ <- co_tlv c ;; Ok c.
(* flic/tlvs/Manifest.py:136-138 *)
Definition man_packet (m : manifest) (n : option name) (expiry : option fl) : res packet :=
  c <- man_content m n expiry ;; create_content_object c.
(* flic/tlvs/Manifest.py:37-48: payload_type() or payload() may be None
   (AttributeError) *)
Definition man_from_content (c : content) : res manifest :=
  match co_ptype c with
  | None => Err AttributeError
  | Some p =>
    _ <- guard (p =? PT_MANIFEST) ValueError ;;
    match co_payload c with
    | None => Err AttributeError
    | Some b => man_deserialize b
    end
  end.
