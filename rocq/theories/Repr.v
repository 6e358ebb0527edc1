(* The text of packets and manifests: the __repr__ methods, what packet_reader
   prints (apps/packet_reader.py), and the message of a failed traversal
   (flic/tree/Traversal.py).  Only whether a text exists or which exception
   making it raises is modelled, not the text itself.  Not modelled: the
   encoding of the terminal, and jsbeautifier (core/DisplayFormatter.py:29-47). *)
From Coq Require Import ZArith List Bool.
From Verif Require Import Py Float Tlv Core Flic Crypto Optimizer Tree Store Traversal Apps.
Import ListNotations.
Open Scope Z_scope.

(* the __repr__ of a field that may be None *)
Definition opt_repr {A} (f : A -> res unit) (o : option A) : res unit :=
  match o with None => Ok tt | Some a => f a end.
(* the __repr__ of a list: of its elements in turn *)
Definition list_repr {A} (f : A -> res unit) (l : list A) : res unit :=
  _ <- mapM f l ;; Ok tt.

(* ---------------- core ---------------- *)

(* core/Name.py:103-104 *)
Definition name_repr (n : name) : res unit := list_repr comp_repr n.

(* core/Timestamp.py:45-46, 81-85.  datetime.fromtimestamp(t, UTC): seconds that
   do not fit time_t raise OverflowError, seconds for which gmtime has no year
   (more than an int) raise OSError; years after 9999 raise ValueError, which
   is caught.  The limits are those of CPython on 64 bit Linux.  Times are not
   negative (Float.v). *)
Definition TIME_T_END : Z := 2 ^ 63.
Definition GMTIME_LAST : Z := 67768036191676799.
Definition ts_repr (f : fl) : res unit :=
  let s := fl_trunc f in
  if TIME_T_END <=? s then Err OverflowError
  else if GMTIME_LAST <? s then Err OSError
  else Ok tt.

(* ---------------- flic ---------------- *)

(* flic/tlvs/NcDef.py:51-52, NcId.py:28-29 *)
Definition ncdef_repr (d : ncdef) : res unit :=
  _ <- opt_repr int_text (nd_id d) ;; opt_repr schema_repr (nd_schema d).
(* flic/tlvs/GroupData.py:81-85, SubtreeSize.py:29-30, LeafSize.py:31-32,
   StartSegmentId.py:34-35; the digests are printed in hexadecimal
   (core/HashValue.py:79-80), which cannot fail *)
Definition gd_repr (g : gdata) : res unit :=
  _ <- opt_repr int_text (gd_subtree_size g) ;;
  _ <- opt_repr int_text (gd_leaf_size g) ;;
  _ <- opt_repr int_text (gd_nc_id g) ;;
  opt_repr int_text (gd_start g).
(* flic/tlvs/HashGroup.py:49-50, Pointers.py:56-57 *)
Definition hg_repr (h : hgroup) : res unit := opt_repr gd_repr (hg_data h).
(* flic/tlvs/NodeData.py:100-101; a Vendor has a number of 24 bits
   (Vendor.py:53-54) *)
Definition nd_repr (d : ndata) : res unit :=
  _ <- opt_repr int_text (nd_size d) ;;
  _ <- opt_repr (list_repr link_repr) (nd_locators d) ;;
  list_repr ncdef_repr (nd_ncdefs d).
(* flic/tlvs/Node.py:120-122: the hash values are counted first *)
Definition node_repr (n : node) : res unit :=
  _ <- node_hash_values (n_groups n) ;;
  _ <- opt_repr nd_repr (n_data n) ;;
  list_repr hg_repr (n_groups n).
(* flic/tlvs/AeadMode.py:33-43, 79-80 *)
Definition mode_repr (m : Z) : res unit := guard ((1 <=? m) && (m <=? 4)) ValueError.
(* flic/tlvs/KdfData.py:62-63, KdfAlg.py:42-43 *)
Definition kdf_repr (k : kdf) : res unit := int_text (k_alg k).
(* flic/aeadctx/AeadData.py:55-56, flic/tlvs/KeyNumber.py:38-39 *)
Definition aead_repr (a : aead) : res unit :=
  _ <- int_text (a_keynum a) ;;
  _ <- opt_repr mode_repr (a_mode a) ;;
  opt_repr kdf_repr (a_kdf a).
(* flic/RsaOaepCtx/RsaOaepWrapper.py:68-69, HashAlg.py:32-33,
   core/KeyLink.py:36-37 *)
Definition wrapper_repr (w : wrapper) : res unit :=
  _ <- opt_repr link_repr (w_keylink w) ;;
  opt_repr int_text (w_hashalg w).
(* flic/tlvs/AeadCtx.py:60-61, RsaOaepCtx.py:66-67 *)
Definition ctx_repr (c : secctx) : res unit :=
  match c with
  | CAead a => aead_repr a
  | CRsa a w => _ <- aead_repr a ;; opt_repr wrapper_repr w
  end.
(* flic/tlvs/Manifest.py:71-72, EncryptedNode.py:30-31, AuthTag.py:32-33 *)
Definition man_repr (m : manifest) : res unit :=
  _ <- opt_repr ctx_repr (m_ctx m) ;;
  match m_node m with MNode n => node_repr n | MEnc _ => Ok tt end.

(* ---------------- packets ---------------- *)

(* core/ContentObject.py:148-162: what is put in the place of the payload.
   ParseError is caught, CannotParseError is another class. *)
Inductive shown_payload := PLMan (m : manifest) | PLLink (l : link) | PLRaw.
Definition co_shown (brief : bool) (c : content) : res shown_payload :=
  if is_manifest c then
    match co_payload c with
    | None => Err AttributeError
    | Some b =>
      match man_deserialize b with
      | Ok m => Ok (PLMan m)
      | Err ParseError => Ok PLRaw
      | Err e => Err e
      end
    end
  else if is_link c then
    match co_payload c with
    | None => Err AttributeError
    | Some b => l <- link_deserialize b ;; Ok (PLLink l)
    end
  else if brief then
    match co_payload c with
    | None => Err TypeError
    | Some _ => Ok PLRaw
    end
  else Ok PLRaw.
(* core/ContentObject.py:148-164; [brief] is USE_BRIEF_OUTPUT.  The payload
   type is a byte (core/PayloadType.py:41-42). *)
Definition co_repr (brief : bool) (c : content) : res unit :=
  x <- co_shown brief c ;;
  _ <- opt_repr name_repr (co_name c) ;;
  _ <- opt_repr ts_repr (co_expiry c) ;;
  _ <- match x with PLMan m => man_repr m | PLLink l => link_repr l | PLRaw => Ok tt end ;;
  opt_repr int_text (co_fcid c).
(* core/ValidationAlg.py:84-85, 160-162 *)
Definition valg_repr (v : valg) : res unit :=
  match v with
  | VCrc32c => Ok tt
  | VRsa _ _ kl st => _ <- opt_repr link_repr kl ;; ts_repr st
  end.
(* core/Packet.py:95-96.  The header has only small numbers
   (core/FixedHeader.py:48-51); an Interest has no __repr__ of its own. *)
Definition packet_repr (brief : bool) (p : packet) : res unit :=
  _ <- match p_body p with BCO c => co_repr brief c | BInterest _ => Ok tt end ;;
  opt_repr valg_repr (p_alg p).

(* ---------------- packet_reader ---------------- *)

Section Show.
Variable P : prims.
(* apps/packet_reader.py:43-68 PacketReader.read with the printing: Apps.v
   packet_read has the rest.  Without --pretty the brief output is used (47).
   decrypt_manifest may give None, which prints. *)
Definition packet_show (pretty : bool) (a : cargs P) (now : fl) (content : bytes) : res shown :=
  ks <- create_keystore P a ;;
  p <- packet_deserialize now content ;;
  _ <- packet_repr (negb pretty) p ;;
  v <- utils_validate P ks p ;;
  match p_body p with
  | BInterest _ => Err AttributeError
  | BCO c =>
    if is_manifest c then
      m <- man_from_content c ;;
      if is_encrypted m then
        d <- utils_decrypt P ks m ;;
        _ <- opt_repr man_repr d ;;
        Ok (mkShown p v (Some d))
      else Ok (mkShown p v None)
    else Ok (mkShown p v None)
  end.

(* ---------------- the message of a failed traversal ---------------- *)

Variable get : option name -> option hashv -> res packet.
Variable wr : bool.
(* The texts that flic/tree/Traversal.py makes when something is wrong: of an
   exception with the manifest (126) and of an object with an unknown payload
   type (138).  The first contains the text of the exception too. *)
Variable msg : exn -> manifest -> res unit.
Variable odd : content -> res unit.

(* Traversal.py:123-127: except Exception as e: print(...); raise *)
Definition reporting {A} (m : manifest) (x : st (tst P) A) : st (tst P) A := fun s =>
  match x s with
  | (Err e, s') => match msg e m with Ok _ => (Err e, s') | Err e' => (Err e', s') end
  | r => r
  end.
(* Traversal.py:93-138 preorder, as Traversal.v has it, with these texts *)
Fixpoint preorder_msg (fuel : nat) (c : ncache) (p : packet) : st (tst P) unit :=
  match fuel with
  | O => lift (Err OutOfFuel)
  | S f =>
    _ <~ smod (fun s => mkTs (ts_count s + 1) (ts_out s) (ts_dc s)) ;;
    match p_body p with
    | BInterest _ => lift (Err TypeError)
    | BCO b =>
      match co_ptype b with
      | None => lift (Err AttributeError)
      | Some t =>
        if t =? PT_MANIFEST then
          m <~ lift (man_from_content b) ;;
          m <~ t_decrypt P m ;;
          c <~ lift (update_nc_cache c m) ;;
          let '(kids, e) := man_hash_values m in
          reporting m
            (_ <~ visit_children P get (preorder_msg f c) c kids ;;
             match e with Some e => lift (Err e) | None => sret tt end)
        else if t =? PT_DATA then write_data P wr (co_payload b)
        else _ <~ lift (odd b) ;; lift (Err ValueError)
      end
    end
  end.
(* Traversal.py:82-91 traverse *)
Definition traverse_msg (fuel : nat) (root : option name) (h : option hashv) : st (tst P) unit :=
  p <~ lift (get root h) ;;
  _ <~ validate P p ;;
  preorder_msg fuel [] p.
End Show.
