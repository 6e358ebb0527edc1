(* Model of == on the parts of a manifest: group data, hash groups, locators,
   name constructor schemas and definitions, vendor tags, node data, nodes and
   security contexts.  As in Eq.v, a comparison by __dict__ goes through the
   attributes in the order in which the constructor sets them and stops at the
   first difference, and one that reaches an attribute of None raises
   AttributeError.  Simplified: links inside locators have not been iterated
   over (core/Link.py:80-90), and payloads of vendor tags are array("B"). *)
From Coq Require Import ZArith List Bool.
From Verif Require Import Py Tlv Core Flic Eq.
Import ListNotations.
Open Scope Z_scope.

(* an attribute whose class has an __eq__ that reaches for other.__dict__ and
   whose parts may do so too *)
Definition attr_reaches {A} (eq : A -> A -> res bool) (a b : option A) : res bool :=
  match a, b with
  | None, None => Ok true
  | Some x, Some y => eq x y
  | _, _ => Err AttributeError
  end.
(* list == list in CPython (Objects/listobject.c list_richcompare): lists of
   different length are unequal, otherwise items are compared until the first
   difference *)
Fixpoint items_eq {A} (eq : A -> A -> res bool) (a b : list A) : res bool :=
  match a, b with
  | x :: a', y :: b' => and_then (eq x y) (items_eq eq a' b')
  | _, _ => Ok true
  end.
Definition list_eq {A} (eq : A -> A -> res bool) (a b : list A) : res bool :=
  if zlen a =? zlen b then items_eq eq a b else Ok false.

(* flic/tlvs/GroupData.py:78-79, attributes 60-73: core/TlvType.py:132-135 for
   the numbers, core/HashTlvType.py:44-47 for the digests, whose Tlv holds the
   HashValue itself (core/HashTlvType.py:36, core/HashValue.py:82-85) *)
Definition gd_eq (a b : gdata) : res bool :=
  and_then (attr_checked Z.eqb (gd_subtree_size a) (gd_subtree_size b))
  (and_then (attr_checked hashv_eq (gd_subtree_digest a) (gd_subtree_digest b))
  (and_then (attr_checked Z.eqb (gd_leaf_size a) (gd_leaf_size b))
  (and_then (attr_checked hashv_eq (gd_leaf_digest a) (gd_leaf_digest b))
  (and_then (attr_checked Z.eqb (gd_nc_id a) (gd_nc_id b))
  (and_then (attr_checked Z.eqb (gd_start a) (gd_start b))
  (Ok (same_tlv (gd_tlv a) (gd_tlv b)))))))).

(* flic/tlvs/HashGroup.py:44-47 *)
Definition hg_eq (a b : hgroup) : bool := same_tlv (hg_tlv a) (hg_tlv b).

(* flic/tlvs/Locator.py:66-67, attributes 60-61 *)
Definition loc_eq (a b : link) : res bool :=
  and_then (link_eq (mkLO a 0) (mkLO b 0)) (Ok (same_tlv (loc_tlv a) (loc_tlv b))).
(* flic/tlvs/Locators.py:71-74, attributes 65-66 *)
Definition locs_eq (a b : list link) : res bool :=
  and_then (list_eq loc_eq a b) (Ok (same_tlv (locs_tlv a) (locs_tlv b))).

(* flic/tlvs/NcSchema.py:206-209 for PrefixSchema.  The others compare
   __dict__ (34-35), for SegmentedSchema in the order _name (149), _locators
   (93), _flags (56), _tlv (58), _suffix_type (229), for HashSchema _locators,
   _flags, _tlv; the three classes have 4, 5 and 3 attributes, so objects of
   different classes are unequal.  flic/tlvs/SuffixComponentType.py:45-46.
   There are no objects with flags (see schema_tlv). *)
Definition schema_eq (a b : schema) : res bool :=
  match a, b with
  | SPrefix _ _ _, SPrefix _ _ _ => Ok (same_tlv (schema_tlv a) (schema_tlv b))
  | SSeg n x l _, SSeg n' x' l' _ =>
    and_then (attr_unchecked name_eq n n')
    (and_then (attr_reaches locs_eq l l')
    (and_then (Ok (same_tlv (schema_tlv a) (schema_tlv b)))
    (attr_unchecked Z.eqb x x')))
  | SHash l _, SHash l' _ =>
    and_then (attr_reaches locs_eq l l') (Ok (same_tlv (schema_tlv a) (schema_tlv b)))
  | _, _ => Ok false
  end.
(* flic/tlvs/NcDef.py:54-57 *)
Definition ncdef_eq (a b : ncdef) : bool := same_tlv (ncdef_tlv a) (ncdef_tlv b).

(* flic/tlvs/Vendor.py:48-51, attributes 38-43 *)
Definition vendor_eq (a b : vendor) : bool :=
  beqb (v_payload a) (v_payload b) && (v_pen a =? v_pen b) && same_tlv (vendor_tlv a) (vendor_tlv b).

(* flic/tlvs/NodeData.py:97-98, attributes 68-92.  The vendors None and []
   are both [] (65-66); None == list is False like lists of different
   length. *)
Definition nd_eq (a b : ndata) : res bool :=
  and_then (attr_checked Z.eqb (nd_size a) (nd_size b))
  (and_then (attr_checked hashv_eq (nd_digest a) (nd_digest b))
  (and_then (attr_reaches locs_eq (nd_locators a) (nd_locators b))
  (and_then (list_eq (fun x y => Ok (vendor_eq x y)) (nd_vendors a) (nd_vendors b))
  (and_then (list_eq (fun x y => Ok (ncdef_eq x y)) (nd_ncdefs a) (nd_ncdefs b))
  (Ok (same_tlv (nd_tlv a) (nd_tlv b))))))).

(* flic/tlvs/Node.py:115-118, attributes 87-99; pad_length is not kept *)
Definition node_eq (a b : node) : res bool :=
  and_then (attr_reaches nd_eq (n_data a) (n_data b))
  (and_then (list_eq (fun x y => Ok (hg_eq x y)) (n_groups a) (n_groups b))
  (Ok (same_tlv (node_tlv a) (node_tlv b)))).

(* flic/aeadctx/AeadData.py:50-53 *)
Definition aead_eq (a b : aead) : bool := same_wire (aead_wire a) (aead_wire b).
(* flic/tlvs/AeadCtx.py:52-55; flic/tlvs/RsaOaepCtx.py:58-61, where the value of
   the outer Tlv is the inner Tlv object (54-56), compared by core/Tlv.py:96-102 *)
Definition ctx_eq (a b : secctx) : bool :=
  match a, b with
  | CAead x, CAead y => aead_eq x y
  | CRsa _ _, CRsa _ _ => same_tlv (ctx_tlv a) (ctx_tlv b)
  | _, _ => false
  end.
