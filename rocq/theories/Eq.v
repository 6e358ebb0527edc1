(* Model of == on packets, content objects, validation sections, links and
   pointer lists.  A comparison that reaches an attribute or method of None
   raises AttributeError.  Dictionaries (comparison by __dict__) are compared
   entry by entry in the order in which the constructor sets the attributes,
   and the first difference ends it (CPython, Objects/dictobject.c dict_equal);
   the entries of a comparison by __dict__ are listed here in that order.
   Simplified: the values of hashes and validation payloads are array("B"), as
   the package makes them and as they are parsed from an array (Packet.load,
   core/Packet.py:131-134); those parsed from a bytes object differ from all
   arrays. *)
From Coq Require Import ZArith List Bool.
From Verif Require Import Py Float Tlv Core Flic Crypto Tree.
Import ListNotations.
Open Scope Z_scope.

(* a == b and then the rest *)
Definition and_then (a b : res bool) : res bool :=
  x <- a ;; if x then b else Ok false.
(* an attribute that may be None; classes whose __eq__ begins with isinstance
   say False for None, the others reach for an attribute *)
Definition attr_checked {A} (eq : A -> A -> bool) (a b : option A) : res bool :=
  match a, b with
  | None, None => Ok true
  | Some x, Some y => Ok (eq x y)
  | _, _ => Ok false
  end.
Definition attr_unchecked {A} (eq : A -> A -> bool) (a b : option A) : res bool :=
  match a, b with
  | None, None => Ok true
  | Some x, Some y => Ok (eq x y)
  | _, _ => Err AttributeError
  end.
(* the wire images or TLVs of two objects; objects have them *)
Definition same_wire (a b : res bytes) : bool :=
  match a, b with Ok x, Ok y => beqb x y | _, _ => false end.
Definition same_tlv (a b : res tlv) : bool :=
  match a, b with Ok x, Ok y => tlv_eq x y | _, _ => false end.

(* core/Timestamp.py:42-43: floats are compared by value *)
Definition fl_eq (a b : fl) : bool := fl_num a * fl_den b =? fl_num b * fl_den a.

(* core/ContentObject.py:166-167, attributes 136-146: core/Name.py:97-98,
   core/PayloadType.py:52-53 (whose _tlv follows from the number), core/
   TlvType.py:185-188, core/Timestamp.py:42-43, core/FinalChunkId.py:37-41 *)
Definition co_eq (a b : content) : res bool :=
  and_then (attr_unchecked name_eq (co_name a) (co_name b))
  (and_then (attr_unchecked Z.eqb (co_ptype a) (co_ptype b))
  (and_then (attr_checked beqb (co_payload a) (co_payload b))
  (and_then (attr_unchecked fl_eq (co_expiry a) (co_expiry b))
  (and_then (attr_checked Z.eqb (co_fcid a) (co_fcid b))
  (Ok (same_tlv (co_tlv a) (co_tlv b))))))).

(* core/ValidationAlg.py:78-79 (Crc32c, by __dict__: a RsaSha256 has more
   attributes) and 152-155 (RsaSha256: the value of the outer Tlv is the inner
   Tlv object, 142-143) *)
Definition valg_eq (a b : valg) : bool :=
  match a, b with
  | VCrc32c, VCrc32c => true
  | VRsa _ _ _ _, VRsa _ _ _ _ => same_tlv (valg_tlv a) (valg_tlv b)
  | _, _ => false
  end.
Definition valg_attr_eq (a b : option valg) : res bool :=
  match a, b with
  | None, Some VCrc32c | Some VCrc32c, None => Err AttributeError
  | _, _ => attr_checked valg_eq a b
  end.

(* core/FixedHeader.py:53-56 *)
Definition hdr_eq (a b : header) : bool :=
  let '(x, y, z) := f_fields a in
  let '(x', y', z') := f_fields b in
  (f_ver a =? f_ver b) && (f_ptype a =? f_ptype b) && (f_plen a =? f_plen b) &&
  ((x =? x') && (y =? y') && (z =? z')) && (f_hlen a =? f_hlen b).

(* core/Packet.py:92-93, attributes 76-81; the hash is a function of what
   comes before it.  Interests have no __eq__ and no packets
   (core/Packet.py:83-90 fails for them). *)
Definition body_eq (a b : body) : res bool :=
  match a, b with
  | BCO x, BCO y => co_eq x y
  | _, _ => Ok false
  end.
Definition packet_eq (a b : packet) : res bool :=
  and_then (Ok (hdr_eq (p_hdr a) (p_hdr b)))
  (and_then (body_eq (p_body a) (p_body b))
  (and_then (valg_attr_eq (p_alg a) (p_alg b))
  (and_then (attr_unchecked beqb (p_vpl a) (p_vpl b))
  (Ok (same_wire (packet_wire a) (packet_wire b)))))).

(* flic/tlvs/Manifest.py:74-77 *)
Definition man_eq (a b : manifest) : bool := same_wire (man_wire a) (man_wire b).

(* ---------------- objects that remember an iteration ---------------- *)

(* core/Link.py:55-69: the attribute _offset is part of __dict__ *)
Record link_obj := mkLO { lo_link : link; lo_offset : Z }.
(* core/Link.py:34-69 *)
Definition link_new (l : link) : res link_obj := _ <- link_wire l ;; Ok (mkLO l 0).
(* core/Link.py:80-90, run to the end: what extend(link) does *)
Definition link_iterated (o : link_obj) : link_obj :=
  match link_wire (lo_link o) with
  | Ok w => mkLO (lo_link o) (zlen w)
  | Err _ => o   (* not an object *)
  end.
(* core/Link.py:71-72 *)
Definition link_eq (a b : link_obj) : res bool :=
  let x := lo_link a in let y := lo_link b in
  and_then (attr_unchecked name_eq (l_name x) (l_name y))
  (and_then (attr_checked hashv_eq (l_keyid x) (l_keyid y))
  (and_then (attr_checked hashv_eq (l_digest x) (l_digest y))
  (Ok ((lo_offset a =? lo_offset b) && same_wire (link_wire x) (link_wire y))))).
(* core/KeyLink.py:28-31 with core/Tlv.py:65-69,141-147: the value of the Tlv
   is the Link itself, which _serialize iterates over.  The result is the
   state of the caller's link. *)
Definition keylink_new (o : link_obj) : res link_obj :=
  _ <- keylink_tlv (lo_link o) ;; Ok (link_iterated o).

(* flic/tlvs/Pointers.py:42-48: __dict__ has no _offset before the first
   iteration *)
Record ptrs_obj := mkPO { po_hashes : list hashv; po_offset : option Z }.
(* flic/tlvs/Pointers.py:42-48 *)
Definition ptrs_new (l : list hashv) : res ptrs_obj := _ <- ptrs_tlv l ;; Ok (mkPO l None).
(* flic/tlvs/Pointers.py:62-72, run to the end, as in flic/tlvs/Node.py:162-171 *)
Definition ptrs_iterated (o : ptrs_obj) : ptrs_obj := mkPO (po_hashes o) (Some (zlen (po_hashes o))).
(* list == list with core/HashValue.py:82-85 *)
Fixpoint hashes_eq (a b : list hashv) : bool :=
  match a, b with
  | [], [] => true
  | x :: a', y :: b' => hashv_eq x y && hashes_eq a' b'
  | _, _ => false
  end.
(* flic/tlvs/Pointers.py:53-54: dictionaries of different size are unequal *)
Definition ptrs_eq (a b : ptrs_obj) : bool :=
  match po_offset a, po_offset b with
  | None, None => true
  | Some x, Some y => x =? y
  | _, _ => false
  end && hashes_eq (po_hashes a) (po_hashes b) && same_tlv (ptrs_tlv (po_hashes a)) (ptrs_tlv (po_hashes b)).
