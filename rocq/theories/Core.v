(* Model of /repo/ccnpy/core: hash values, names, links, timestamps, content
   objects, validation sections, fixed header, packets.

   Representation: an object is the plain data handed to its constructor.
   [xxx_tlv x] is what the constructor of class Xxx computes (its _tlv), so it
   may raise; an object exists in a Python program only if [xxx_tlv x] is Ok.
   [xxx_parse t] is the classmethod parse; as in Python it ends by running the
   constructor on the parsed data. *)
From Coq Require Import ZArith List Bool.
From Verif Require Import Py Tlv Float.
Import ListNotations.
Open Scope Z_scope.

(* ---------------- HashValue ---------------- *)

(* core/HashValue.py:22-24 *)
Definition T_SHA_256 : Z := 1.
(* core/HashValue.py:40-54 *)
Record hashv := mkHash { h_alg : Z; h_val : bytes }.
(* core/HashValue.py:53 *)
Definition hashv_tlv (h : hashv) : res tlv := tlv_make (h_alg h) (h_val h).
(* core/HashValue.py:100-104 *)
Definition hashv_parse (t : tlv) : res hashv :=
  let h := mkHash (t_type t) (t_val t) in
  _ <- hashv_tlv h ;; Ok h.
(* core/HashValue.py:106-123 *)
Definition hashv_deserialize (b : bytes) : res hashv :=
  t <- tlv_deserialize b ;; hashv_parse t.
(* core/HashValue.py:82-85 with core/Tlv.py:96-102: the algorithm is not
   compared *)
Definition hashv_eq (a b : hashv) : bool :=
  tlv_eq (mkTlv (h_alg a) (h_val a)) (mkTlv (h_alg b) (h_val b)).

(* ---------------- HashTlvType (KeyId, SubtreeDigest, LeafDigest) --------- *)

(* core/HashTlvType.py:26-36 *)
Definition htt_tlv (class_type : Z) (h : hashv) : res tlv :=
  t <- hashv_tlv h ;; tlv_make class_type (tlv_wire t).
(* core/HashTlvType.py:52-59: bytes after the inner TLV are ignored *)
Definition htt_parse (class_type : Z) (t : tlv) : res hashv :=
  _ <- guard (t_type t =? class_type) CannotParseError ;;
  h <- hashv_deserialize (t_val t) ;;
  _ <- htt_tlv class_type h ;;
  Ok h.
(* core/KeyId.py:19 *)
Definition T_KEYID : Z := 9.

(* ---------------- Name ---------------- *)

(* The Python type of a component value: create_chunk_segment and
   create_manifest_id store an array("B") (core/Name.py:45-51), from_uri and
   parse store bytes (core/Name.py:181-182,206-207).  array == bytes is False
   in Python. *)
Inductive kind := KArray | KBytes.
Definition kind_eqb (a b : kind) : bool :=
  match a, b with KArray, KArray | KBytes, KBytes => true | _, _ => false end.

(* core/Name.py:23-54 *)
Record comp := mkComp { c_type : Z; c_kind : kind; c_val : bytes }.
(* core/Name.py:24-27 *)
Definition T_NAMESEGMENT : Z := 1.
Definition T_CHUNKID : Z := 5.
Definition T_MANIFESTID : Z := 16.

(* core/Name.py:53-54 *)
Definition comp_tlv (c : comp) : res tlv := tlv_make (c_type c) (c_val c).

(* core/Name.py:78-92.  Simplified: Name() with components=None is
   represented by the empty list; both have the same wire format. *)
Definition name := list comp.
Definition T_NAME : Z := 0.

Definition concat_wires (l : list tlv) : bytes := concat (map tlv_wire l).

(* core/Name.py:85-92 *)
Definition name_tlv (n : name) : res tlv :=
  l <- mapM comp_tlv n ;; tlv_make T_NAME (concat_wires l).

(* core/Name.py:170-186: the loop body *)
Definition name_step (acc : name) (t : tlv) : res name :=
  let c := mkComp (t_type t) KBytes (t_val t) in
  _ <- comp_tlv c ;; Ok (acc ++ [c]).
(* core/Name.py:165-188 *)
Definition name_parse (t : tlv) : res name :=
  _ <- guard (t_type t =? T_NAME) RuntimeError ;;
  n <- tlv_foreach name_step [] (t_val t) ;;
  _ <- name_tlv n ;;
  Ok n.

(* core/Name.py:45-51, 122-143 *)
Definition append_chunk_id (n : name) (i : Z) : res name :=
  a <- number_to_array i ;;
  let c := mkComp T_CHUNKID KArray a in
  _ <- comp_tlv c ;;
  let n' := n ++ [c] in
  _ <- name_tlv n' ;; Ok n'.
Definition append_manifest_id (n : name) (i : Z) : res name :=
  a <- number_to_array i ;;
  let c := mkComp T_MANIFESTID KArray a in
  _ <- comp_tlv c ;;
  let n' := n ++ [c] in
  _ <- name_tlv n' ;; Ok n'.

(* core/Tlv.py:96-102 on components: values of different Python type are
   unequal *)
Definition comp_eq (a b : comp) : bool :=
  (zlen (c_val a) =? zlen (c_val b)) && kind_eqb (c_kind a) (c_kind b)
  && beqb (c_val a) (c_val b).
Fixpoint comps_eq (a b : name) : bool :=
  match a, b with
  | [], [] => true
  | x :: a', y :: b' => comp_eq x y && comps_eq a' b'
  | _, _ => false
  end.
(* core/Name.py:97-98: compares _components and _tlv *)
Definition name_eq (a b : name) : bool :=
  comps_eq a b &&
  match name_tlv a, name_tlv b with
  | Ok ta, Ok tb => tlv_eq ta tb
  | _, _ => false   (* not objects *)
  end.

(* ---------------- Link ---------------- *)

(* core/Link.py:34-59 *)
Record link := mkLink
  { l_name : option name; l_keyid : option hashv; l_digest : option hashv }.
(* core/Link.py:28-29 *)
Definition T_KEYIDRESTR : Z := 2.
Definition T_OBJHASHRESTR : Z := 3.
(* core/Link.py:61-69 *)
Definition link_wire (l : link) : res bytes :=
  n <- wire_opt name_tlv (l_name l) ;;
  k <- wire_opt (htt_tlv T_KEYIDRESTR) (l_keyid l) ;;
  d <- wire_opt (htt_tlv T_OBJHASHRESTR) (l_digest l) ;;
  Ok (flatten [n; k; d]).
(* core/Link.py:115-130 *)
Definition link_step (s : link) (t : tlv) : res link :=
  if t_type t =? T_NAME then
    _ <- guard (negb (match l_name s with Some _ => true | None => false end))
           AssertionError ;;
    n <- name_parse t ;; Ok (mkLink (Some n) (l_keyid s) (l_digest s))
  else if t_type t =? T_KEYIDRESTR then
    _ <- guard (negb (match l_keyid s with Some _ => true | None => false end))
           AssertionError ;;
    h <- hashv_deserialize (t_val t) ;;
    Ok (mkLink (l_name s) (Some h) (l_digest s))
  else if t_type t =? T_OBJHASHRESTR then
    _ <- guard (negb (match l_digest s with Some _ => true | None => false end))
           AssertionError ;;
    h <- hashv_deserialize (t_val t) ;;
    Ok (mkLink (l_name s) (l_keyid s) (Some h))
  else Err ValueError.
(* core/Link.py:104-131 *)
Definition link_deserialize (b : bytes) : res link :=
  l <- tlv_foreach link_step (mkLink None None None) b ;;
  _ <- link_wire l ;; Ok l.

(* core/KeyLink.py:22-31,45-51 *)
Definition T_KEYLINK : Z := 14.
Definition keylink_tlv (l : link) : res tlv :=
  w <- link_wire l ;; tlv_make T_KEYLINK w.
Definition keylink_parse (t : tlv) : res link :=
  _ <- guard (t_type t =? T_KEYLINK) TypeError ;;
  l <- link_deserialize (t_val t) ;;
  _ <- keylink_tlv l ;; Ok l.

(* ---------------- Timestamps ---------------- *)

(* core/Timestamp.py:73-79: int(timestamp * 1000).  The timestamp is a
   non-negative float (dates since 1970). *)
Definition ts_msec (f : fl) : res Z :=
  let p := fl_mul_Z f 1000 in
  if fl_finite p then Ok (fl_trunc p) else Err OverflowError.
(* core/Timestamp.py:33-40 *)
Definition ts_tlv (class_type : Z) (f : fl) : res tlv :=
  m <- ts_msec f ;; create_uint64 class_type m.
(* msec / 1000.0: the int is converted to float first *)
Definition ts_of_msec (m : Z) : res fl :=
  let f := fl_of_Z m in
  if fl_finite f then Ok (fl_div_Z f 1000) else Err OverflowError.
(* core/ExpiryTime.py:32-39, core/SignatureTime.py:31-38 *)
Definition ts_parse (class_type : Z) (t : tlv) : res fl :=
  _ <- guard (t_type t =? class_type) RuntimeError ;;
  f <- ts_of_msec (value_as_number t) ;;
  _ <- ts_tlv class_type f ;;
  Ok f.
(* core/ExpiryTime.py:20, core/SignatureTime.py:19 *)
Definition T_EXPIRY : Z := 6.
Definition T_SIGTIME : Z := 15.

(* ---------------- PayloadType, Payload, FinalChunkId, Pad ---------------- *)

(* core/PayloadType.py:20-24,41-44 *)
Definition T_PAYLDTYPE : Z := 5.
Definition PT_DATA : Z := 0.
Definition PT_KEY : Z := 1.
Definition PT_LINK : Z := 2.
Definition PT_MANIFEST : Z := 3.
Definition ptype_tlv (n : Z) : res tlv := create_uint8 T_PAYLDTYPE n.
(* core/PayloadType.py:55-60 *)
Definition ptype_parse (t : tlv) : res Z :=
  _ <- guard (t_type t =? T_PAYLDTYPE) RuntimeError ;;
  let n := value_as_number t in
  _ <- ptype_tlv n ;; Ok n.

(* core/Payload.py:23-28 *)
Definition T_PAYLOAD : Z := 1.
Definition payload_tlv (b : bytes) : res tlv := octet_tlv T_PAYLOAD b.
Definition payload_parse (t : tlv) : res bytes := octet_parse T_PAYLOAD t.

(* core/FinalChunkId.py:20-29 *)
Definition T_FINAL_CHUNK_ID : Z := 7.
Definition fcid_tlv (n : Z) : res tlv := create_varint T_FINAL_CHUNK_ID n.
(* core/FinalChunkId.py:46-51 *)
Definition fcid_parse (t : tlv) : res Z :=
  _ <- guard (t_type t =? T_FINAL_CHUNK_ID) RuntimeError ;;
  let n := value_as_number t in
  _ <- fcid_tlv n ;; Ok n.

(* core/Pad.py:24,30-36: a Pad is represented by its length *)
Definition T_PAD : Z := 0x0FFE.
Definition pad_tlv (n : Z) : res tlv :=
  _ <- guard (0 <=? n) AssertionError ;;
  octet_tlv T_PAD (repeat 0 (Z.to_nat n)).
(* core/Pad.py:41-47: super().parse(tlv) calls cls(tlv.value()), i.e.
   Pad(array), whose "length >= 0" compares an array with an int: TypeError *)
Definition pad_parse (t : tlv) : res Z :=
  _ <- guard (t_type t =? T_PAD) CannotParseError ;;
  Err TypeError.

(* ---------------- ContentObject ---------------- *)

(* core/ContentObject.py:120-141 *)
Record content := mkCO
  { co_name : option name; co_ptype : option Z; co_payload : option bytes;
    co_expiry : option fl; co_fcid : option Z }.
(* core/ContentObject.py:31 *)
Definition T_OBJECT : Z := 2.
(* core/ContentObject.py:142-146 *)
Definition co_tlv (c : content) : res tlv :=
  n <- wire_opt name_tlv (co_name c) ;;
  e <- wire_opt (ts_tlv T_EXPIRY) (co_expiry c) ;;
  p <- wire_opt ptype_tlv (co_ptype c) ;;
  b <- wire_opt payload_tlv (co_payload c) ;;
  f <- wire_opt fcid_tlv (co_fcid c) ;;
  tlv_make T_OBJECT (flatten [n; e; p; b; f]).

Definition is_none {A} (o : option A) : bool :=
  match o with None => true | Some _ => false end.

(* core/ContentObject.py:198-218 *)
Definition co_step (s : content) (t : tlv) : res content :=
  if t_type t =? T_NAME then
    _ <- guard (is_none (co_name s)) AssertionError ;;
    x <- name_parse t ;;
    Ok (mkCO (Some x) (co_ptype s) (co_payload s) (co_expiry s) (co_fcid s))
  else if t_type t =? T_PAYLDTYPE then
    _ <- guard (is_none (co_ptype s)) AssertionError ;;
    x <- ptype_parse t ;;
    Ok (mkCO (co_name s) (Some x) (co_payload s) (co_expiry s) (co_fcid s))
  else if t_type t =? T_PAYLOAD then
    _ <- guard (is_none (co_payload s)) AssertionError ;;
    x <- payload_parse t ;;
    Ok (mkCO (co_name s) (co_ptype s) (Some x) (co_expiry s) (co_fcid s))
  else if t_type t =? T_EXPIRY then
    _ <- guard (is_none (co_expiry s)) AssertionError ;;
    x <- ts_parse T_EXPIRY t ;;
    Ok (mkCO (co_name s) (co_ptype s) (co_payload s) (Some x) (co_fcid s))
  else if t_type t =? T_FINAL_CHUNK_ID then
    _ <- guard (is_none (co_fcid s)) AssertionError ;;
    x <- fcid_parse t ;;
    Ok (mkCO (co_name s) (co_ptype s) (co_payload s) (co_expiry s) (Some x))
  else Err ValueError.
(* core/ContentObject.py:191-220 *)
Definition co_parse (t : tlv) : res content :=
  _ <- guard (t_type t =? T_OBJECT) RuntimeError ;;
  c <- tlv_foreach co_step (mkCO None None None None None) (t_val t) ;;
  _ <- co_tlv c ;; Ok c.

(* core/ContentObject.py:39-70.  The expiry argument is an ExpiryTime. *)
Definition create_data (n : option name) (payload : option bytes)
    (expiry : option fl) (fcid : option Z) : res content :=
  let c := mkCO n (match payload with Some _ => Some PT_DATA | None => None end)
                payload expiry fcid in
  _ <- co_tlv c ;; Ok c.
(* core/ContentObject.py:94-118, without the datetime conversion *)
Definition create_link_co (l : link) (n : option name) (expiry : option fl)
  : res content :=
  _ <- guard (negb (is_none n)) ValueError ;;
  w <- link_wire l ;;
  let c := mkCO n (Some PT_LINK) (Some w) expiry None in
  _ <- co_tlv c ;; Ok c.

(* core/ContentObject.py:229-233, core/PayloadType.py:81-91 *)
Definition is_manifest (c : content) : bool :=
  match co_ptype c with Some p => p =? PT_MANIFEST | None => false end.
Definition is_link (c : content) : bool :=
  match co_ptype c with Some p => p =? PT_LINK | None => false end.

(* ---------------- Validation sections ---------------- *)

(* core/ValidationAlg.py:66-98 (Crc32c) and 101-150 (RsaSha256).  The public
   key to embed is an RsaKey object, here represented by its DER encoding. *)
Inductive valg :=
| VCrc32c
| VRsa (keyid : hashv) (pubkey : option bytes) (klink : option link)
       (sigtime : fl).
(* core/ValidationAlg.py:31,67,102-105 *)
Definition T_VALIDATION_ALG : Z := 3.
Definition T_CRC32C : Z := 2.
Definition T_RSA_SHA256 : Z := 4.
Definition T_PUBLICKEY : Z := 11.
(* core/ValidationAlg.py:130-131: public_key.der() is called on an RsaKey,
   which has no such method (crypto/RsaKey.py:33-294 has public_key_der) *)
Definition pubkey_tlv (der : bytes) : res tlv := Err AttributeError.
(* core/ValidationAlg.py:73-76, 119-146 *)
Definition valg_tlv (v : valg) : res tlv :=
  match v with
  | VCrc32c =>
    i <- tlv_make T_CRC32C [] ;; tlv_make T_VALIDATION_ALG (tlv_wire i)
  | VRsa kid pk kl st =>
    k <- htt_tlv T_KEYID kid ;;
    p <- wire_opt pubkey_tlv pk ;;
    l <- wire_opt keylink_tlv kl ;;
    s <- ts_tlv T_SIGTIME st ;;
    i <- tlv_make T_RSA_SHA256
           (flatten [Some (tlv_wire k); p; l; Some (tlv_wire s)]) ;;
    tlv_make T_VALIDATION_ALG (tlv_wire i)
  end.

(* core/ValidationAlg.py:184-198: unknown TLVs are skipped, repeated fields
   overwrite *)
Definition rsa_step (s : option hashv * option fl) (t : tlv)
  : res (option hashv * option fl) :=
  if t_type t =? T_KEYID then
    h <- htt_parse T_KEYID t ;; Ok (Some h, snd s)
  else if t_type t =? T_SIGTIME then
    f <- ts_parse T_SIGTIME t ;; Ok (fst s, Some f)
  else if t_type t =? T_PUBLICKEY then Err RuntimeError
  else if t_type t =? T_KEYLINK then Err RuntimeError
  else Ok s.
(* core/ValidationAlg.py:176-199 with 122-140; [now] is the clock reading
   used when no signature time is present *)
Definition rsa_parse (now : fl) (t : tlv) : res valg :=
  s <- tlv_foreach rsa_step (None, None) (t_val t) ;;
  match fst s with
  | None => Err ValueError
  | Some kid =>
    let v := VRsa kid None None
               (match snd s with Some f => f | None => now end) in
    _ <- valg_tlv v ;; Ok v
  end.
(* core/ValidationAlg.py:46-59, 87-95: bytes after the inner TLV are
   ignored *)
Definition valg_parse (now : fl) (t : tlv) : res valg :=
  _ <- guard (t_type t =? T_VALIDATION_ALG) ValueError ;;
  i <- tlv_deserialize (t_val t) ;;
  if t_type i =? T_RSA_SHA256 then rsa_parse now i
  else if t_type i =? T_CRC32C then
    _ <- guard (tlv_length i =? 0) ValueError ;;
    _ <- valg_tlv VCrc32c ;; Ok VCrc32c
  else Err ValueError.

(* core/ValidationPayload.py:20,26-31,42-47 *)
Definition T_VALIDATION_PAYLOAD : Z := 4.
Definition vpl_tlv (b : bytes) : res tlv := tlv_make T_VALIDATION_PAYLOAD b.
Definition vpl_parse (t : tlv) : res bytes :=
  _ <- guard (t_type t =? T_VALIDATION_PAYLOAD) RuntimeError ;;
  _ <- vpl_tlv (t_val t) ;; Ok (t_val t).

(* ---------------- FixedHeader ---------------- *)

(* core/FixedHeader.py:27-46 *)
Record header := mkHdr
  { f_ver : Z; f_ptype : Z; f_plen : Z; f_fields : Z * Z * Z; f_hlen : Z }.
(* core/FixedHeader.py:22-24 *)
Definition PT_INTEREST : Z := 0.
Definition PT_CONTENT : Z := 1.
(* core/FixedHeader.py:76-85: struct.pack('!BBHBBBB', ...) raises struct.error
   for values out of range *)
Definition hdr_serialize (h : header) : res bytes :=
  let '(a, b, c) := f_fields h in
  _ <- guard (is_byte (f_ver h) && is_byte (f_ptype h)
              && (0 <=? f_plen h) && (f_plen h <? 65536)
              && is_byte a && is_byte b && is_byte c && is_byte (f_hlen h))
         StructError ;;
  Ok [f_ver h; f_ptype h; f_plen h / 256; f_plen h mod 256; a; b; c; f_hlen h].
(* core/FixedHeader.py:87-108 *)
Definition hdr_deserialize (buf : bytes) : res header :=
  match buf with
  | v :: p :: l1 :: l0 :: a :: b :: c :: hl :: _ =>
    let plen := l1 * 256 + l0 in
    _ <- guard (v =? 1) ValueError ;;
    _ <- guard (8 <=? plen) ValueError ;;
    _ <- guard (8 <=? hl) ValueError ;;
    Ok (mkHdr v p plen (a, b, c) hl)
  | _ => Err RuntimeError
  end.
(* core/FixedHeader.py:110-116 *)
Definition hdr_content (plen : Z) : header :=
  mkHdr 1 PT_CONTENT plen (0, 0, 0) 8.
Definition hdr_interest (plen hop_limit : Z) : header :=
  mkHdr 1 PT_INTEREST plen (hop_limit, 0, 0) 8.

(* ---------------- Packet ---------------- *)

(* core/Interest.py:25-37.  Only the name is modelled; the restrictions are
   not (the class cannot be serialized or parsed anyway, 46-51). *)
Inductive body := BCO (c : content) | BInterest (n : option name).
(* core/Interest.py:19,37 *)
Definition T_INTEREST : Z := 1.
Definition interest_tlv (n : option name) : res tlv :=
  w <- wire_opt name_tlv n ;; tlv_make T_INTEREST (flatten [w]).

(* core/Packet.py:59-81 *)
Record packet := mkPkt
  { p_hdr : header; p_body : body; p_alg : option valg;
    p_vpl : option bytes }.

(* body.serialize(): core/ContentObject.py:222-223; Interest.serialize
   returns None (core/Interest.py:50-51) and extend(None) raises TypeError *)
Definition body_wire (b : body) : res bytes :=
  match b with
  | BCO c => t <- co_tlv c ;; Ok (tlv_wire t)
  | BInterest _ => Err TypeError
  end.

(* core/Packet.py:83-90, behind the checks of 72-74 *)
Definition packet_wire (p : packet) : res bytes :=
  _ <- guard (Bool.eqb (is_none (p_alg p)) (is_none (p_vpl p))) TypeError ;;
  h <- hdr_serialize (p_hdr p) ;;
  b <- body_wire (p_body p) ;;
  a <- wire_opt valg_tlv (p_alg p) ;;
  v <- wire_opt vpl_tlv (p_vpl p) ;;
  Ok (h ++ flatten [Some b; a; v]).

(* core/Packet.py:155-163: what is fed to SHA-256 *)
Definition packet_hash_input (p : packet) : res bytes :=
  b <- body_wire (p_body p) ;;
  a <- wire_opt valg_tlv (p_alg p) ;;
  v <- wire_opt vpl_tlv (p_vpl p) ;;
  Ok (flatten [Some b; a; v]).

(* core/Packet.py:39-43, 52-57 *)
Definition create_content_object (c : content) : res packet :=
  t <- co_tlv c ;;
  let p := mkPkt (hdr_content (8 + tlv_len t)) (BCO c) None None in
  _ <- packet_wire p ;; Ok p.
Definition create_signed_content_object (c : content) (a : valg) (v : bytes)
  : res packet :=
  tc <- co_tlv c ;;
  ta <- valg_tlv a ;;
  tv <- vpl_tlv v ;;
  let p := mkPkt (hdr_content (8 + tlv_len tc + tlv_len ta + tlv_len tv))
             (BCO c) (Some a) (Some v) in
  _ <- packet_wire p ;; Ok p.
(* core/Packet.py:33-37 *)
Definition create_interest (n : option name) (hop_limit : Z) : res packet :=
  t <- interest_tlv n ;;
  _ <- array_B [hop_limit; 0; 0] ;;
  let p := mkPkt (hdr_interest (8 + tlv_len t) hop_limit) (BInterest n)
             None None in
  _ <- packet_wire p ;; Ok p.

(* core/Packet.py:109-127.  Interest.parse returns None, so body stays None *)
Definition pkt_state : Type := option content * option valg * option bytes.
Definition packet_step (now : fl) (s : pkt_state) (t : tlv) : res pkt_state :=
  let '(b, a, v) := s in
  if t_type t =? T_OBJECT then
    _ <- guard (is_none b) AssertionError ;;
    c <- co_parse t ;; Ok (Some c, a, v)
  else if t_type t =? T_INTEREST then
    _ <- guard (is_none b) AssertionError ;;
    Ok (None, a, v)
  else if t_type t =? T_VALIDATION_ALG then
    _ <- guard (is_none a) AssertionError ;;
    x <- valg_parse now t ;; Ok (b, Some x, v)
  else if t_type t =? T_VALIDATION_PAYLOAD then
    _ <- guard (negb (is_none a)) AssertionError ;;
    _ <- guard (is_none v) AssertionError ;;
    x <- vpl_parse t ;; Ok (b, a, Some x)
  else Err RuntimeError.
(* core/Packet.py:101-129 *)
Definition packet_deserialize (now : fl) (buf : bytes) : res packet :=
  h <- hdr_deserialize buf ;;
  s <- tlv_foreach (packet_step now) (None, None, None) (zskip (f_hlen h) buf) ;;
  let '(b, a, v) := s in
  match b with
  | None => Err TypeError
  | Some c =>
    let p := mkPkt h (BCO c) a v in
    _ <- packet_wire p ;; Ok p
  end.

Section Hash.
(* hashlib.sha256 *)
Variable sha256 : bytes -> bytes.
(* core/Packet.py:155-166 *)
Definition packet_hash (p : packet) : res hashv :=
  i <- packet_hash_input p ;;
  let h := mkHash T_SHA_256 (sha256 i) in
  _ <- hashv_tlv h ;; Ok h.
End Hash.
