(* flic/tree/Traversal.py: walking a manifest tree. *)
From Coq Require Import ZArith List Bool.
From Verif Require Import Py Float Tlv Core Flic Crypto Optimizer Tree Store.
Import ListNotations.
Open Scope Z_scope.

(* ---------------- text of a name constructor ---------------- *)

(* bytes.decode('UTF-8') succeeds: the well formed byte sequences of the
   Unicode standard (table 3-7) *)
Definition cont (lo hi x : Z) : bool := (lo <=? x) && (x <=? hi).
Fixpoint utf8 (b : bytes) : bool :=
  match b with
  | [] => true
  | x :: r =>
    if cont 0 0x7F x then utf8 r
    else if cont 0xC2 0xDF x then
      match r with y :: r => cont 0x80 0xBF y && utf8 r | _ => false end
    else if cont 0xE0 0xEF x then
      match r with
      | y :: z :: r =>
        cont (if x =? 0xE0 then 0xA0 else 0x80) (if x =? 0xED then 0x9F else 0xBF) y
        && cont 0x80 0xBF z && utf8 r
      | _ => false
      end
    else if cont 0xF0 0xF4 x then
      match r with
      | y :: z :: w :: r =>
        cont (if x =? 0xF0 then 0x90 else 0x80) (if x =? 0xF4 then 0x8F else 0xBF) y
        && cont 0x80 0xBF z && cont 0x80 0xBF w && utf8 r
      | _ => false
      end
    else false
  end.

(* whether NameComponent.__repr__ (core/Name.py:56-66) succeeds: a name segment
   is decoded; UnicodeDecodeError is a ValueError, and an array has no decode.
   Chunk and manifest ids are written as decimal numbers.
   The text itself is not modelled. *)
Definition comp_repr (c : comp) : res unit :=
  if c_type c =? T_NAMESEGMENT then
    match c_kind c with
    | KArray => Err AttributeError
    | KBytes => guard (utf8 (c_val c)) ValueError
    end
  else if (c_type c =? T_CHUNKID) || (c_type c =? T_MANIFESTID) then int_text (array_to_number (c_val c))
  else Ok tt.
(* Name.__repr__ (103-104), Link.__repr__ (core/Link.py:74-75), Locator and
   Locators.__repr__ (flic/tlvs/Locator.py:69-70, Locators.py:76-77) *)
Definition link_repr (l : link) : res unit :=
  match l_name l with
  | None => Ok tt
  | Some n => _ <- mapM comp_repr n ;; Ok tt
  end.
(* the __repr__ of the schemas, flic/tlvs/NcSchema.py:203-204, 231-232,
   282-283: the schema's own name is formatted with Name.__str__
   (core/Name.py:100-101), which cannot fail, the locators with __repr__ *)
Definition schema_repr (s : schema) : res unit :=
  match s with
  | SHash ls _ | SPrefix _ ls _ | SSeg _ _ ls _ =>
      match ls with
      | None => Ok tt
      | Some l => _ <- mapM link_repr l ;; Ok tt
      end
  end.

(* ---------------- name constructor cache ---------------- *)

(* Traversal.py:40-49.  The copy made for a branch (line 47) shares its tail
   with the original here; bindings are never removed. *)
Definition ncache := list (Z * impl).

(* SchemaImplFactory.from_ncdef, flic/name_constructor/SchemaImplFactory.py:72-83,
   of a definition with NcId [nc] *)
Definition from_ncdef (nc : Z) (s : option schema) : res impl :=
  match s with
  | None => Err ValueError
  | Some s => impl_make nc s
  end.

(* Traversal.py:51-54 NameConstructorCache.update: the loop body.  The printed
   line evaluates the texts of nc_id().id() and of the schema first. *)
Definition cache_def (c : ncache) (d : ncdef) : res ncache :=
  match nd_id d with
  | None => Err AttributeError
  | Some nc =>
    _ <- int_text nc ;;
    _ <- match nd_schema d with None => Ok tt | Some s => schema_repr s end ;;
    i <- from_ncdef nc (nd_schema d) ;;
    Ok (dict_set nc i c)
  end.

(* Traversal.py:194-209 _update_nc_cache; an EncryptedNode has no
   has_node_data() *)
Definition update_nc_cache (c : ncache) (m : manifest) : res ncache :=
  match m_node m with
  | MEnc _ => Err AttributeError
  | MNode n =>
    match n_data n with
    | None => Ok c
    | Some d => foldM cache_def c (nd_ncdefs d)
    end
  end.

Section Traversal.
Variable P : prims.
(* packet_input.get(name, hash_restriction), Traversal.py:63.  A reader does not
   change while it is read. *)
Variable get : option name -> option hashv -> res packet.
(* data_writer is not None, Traversal.py:64 *)
Variable wr : bool.

(* What a traversal changes: the counter (66), the calls of data_writer.write,
   and the decryptor cache with the key store (65, 68); None: no key store.
   The ManifestGraph is in Graph.v; logging is not modelled. *)
Record tst := mkTs { ts_count : Z; ts_out : list bytes; ts_dc : option (dcache P) }.

(* Traversal.py:56-70 __init__ *)
Definition tst_new (ks : option (keystore P)) : tst :=
  mkTs 0 [] (match ks with Some k => Some (dc_init P k) | None => None end).

(* self._keystore, which the validator shares with the decryptors *)
Definition ts_keystore (s : tst) : option (keystore P) :=
  match ts_dc s with Some d => Some (dc_ks P d) | None => None end.

(* Traversal.py:67, 90, 169 *)
Definition validate (p : packet) : st tst unit :=
  s <~ sget ;; lift (validate_packet P (ts_keystore s) p).

(* Traversal.py:180-192 _decrypt.  Without key store the first use of it raises
   AttributeError. *)
Definition t_decrypt (m : manifest) : st tst manifest :=
  if negb (is_encrypted m) then sret m
  else
    match m_ctx m with
    | None => lift (Err ValueError)
    | Some c => fun s =>
      match ts_dc s with
      | None => (Err AttributeError, s)
      | Some d =>
        let '(r, d) := dc_get P d c in
        match r with
        | Err e => (Err e, mkTs (ts_count s) (ts_out s) (Some d))
        | Ok k =>
          let '(r, d) := dc_decrypt P d k m in
          (r, mkTs (ts_count s) (ts_out s) (Some d))
        end
      end
    end.

(* Traversal.py:211-215 _fetch_packet *)
Definition fetch_packet (c : ncache) (i : hiv) : res packet :=
  match dict_get Z.eqb (hi_nc i) c with
  | None => Err KeyError
  | Some im =>
    n <- impl_name im (hi_seg i) ;;
    get n (Some (hi_hash i))
  end.

(* Traversal.py:140-143 _write_data; a missing payload has no value() *)
Definition write_data (payload : option bytes) : st tst unit :=
  if wr then
    match payload with
    | None => lift (Err AttributeError)
    | Some b => smod (fun s => mkTs (ts_count s) (ts_out s ++ [b]) (ts_dc s))
    end
  else sret tt.

(* Traversal.py:145-170 _visit_children; [go] is self.preorder.  A reader of
   this package never returns None (164-165). *)
Fixpoint visit_children (go : packet -> st tst unit) (c : ncache) (kids : list hiv)
  : st tst unit :=
  match kids with
  | [] => sret tt
  | i :: kids' =>
    p <~ lift (fetch_packet c i) ;;
    _ <~ validate p ;;
    _ <~ go p ;;
    visit_children go c kids'
  end.

(* Traversal.py:93-138 preorder.  [fuel] bounds the depth of the recursion as
   Python's recursion limit does; OutOfFuel stands for RecursionError.  hash_values()
   is a generator: an exception in it comes after the children yielded before
   it.  The message printed for an exception (125-126) is in Repr.v. *)
Fixpoint preorder (fuel : nat) (c : ncache) (p : packet) : st tst unit :=
  match fuel with
  | O => lift (Err OutOfFuel)
  | S f =>
    _ <~ smod (fun s => mkTs (ts_count s + 1) (ts_out s) (ts_dc s)) ;;
    match p_body p with
    | BInterest _ => lift (Err TypeError)
    | BCO b =>
      match co_ptype b with
      | None => lift (Err AttributeError)
      | Some t =>
        if t =? PT_MANIFEST then
          m <~ lift (man_from_content b) ;;
          m <~ t_decrypt m ;;
          c <~ lift (update_nc_cache c m) ;;
          let '(kids, e) := man_hash_values m in
          _ <~ visit_children (preorder f c) c kids ;;
          match e with Some e => lift (Err e) | None => sret tt end
        else if t =? PT_DATA then write_data (co_payload b)
        else lift (Err ValueError)
      end
    end
  end.

(* Traversal.py:82-91 traverse *)
Definition traverse (fuel : nat) (root : option name) (h : option hashv) : st tst unit :=
  p <~ lift (get root h) ;;
  _ <~ validate p ;;
  preorder fuel [] p.
End Traversal.
Arguments mkTs {P} ts_count ts_out ts_dc.
Arguments ts_count {P} t.
Arguments ts_out {P} t.
Arguments ts_dc {P} t.
