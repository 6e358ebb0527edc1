(* Objects that keep the list they were given: names, and the hash groups of a
   HashGroupBuilder.  Histories of calls; what an object answers about its items
   comes from the list as it is now, its wire format from the list as it was. *)
From Coq Require Import ZArith List Bool.
From Verif Require Import Py Float Tlv Core Flic Tree Uri.
Import ListNotations.
Open Scope Z_scope.

(* ---------------- HashGroupBuilder ---------------- *)

(* flic/HashGroupBuilder.py:45-102: the four methods that add a pointer.  The
   limits are integers as in hb_new; math.inf is left out. *)
Inductive call :=
| Append (direct : bool) (h : hashv) (size : option Z)
| Prepend (direct : bool) (h : hashv) (size : option Z).
Definition do_call (c : call) (b : hgb) : res hgb :=
  match c with
  | Append true h sz => hb_append_direct b h sz
  | Append false h sz => hb_append_indirect b h sz
  | Prepend true h sz => hb_prepend_direct b h sz
  | Prepend false h sz => hb_prepend_indirect b h sz
  end.

(* A HashGroup that the builder has made (HashGroupBuilder.py:129-155): its group
   data and wire format.  Its Pointers object holds the list of the builder
   itself (HashGroupBuilder.py:109, flic/tlvs/Pointers.py:47), so there is no
   list of its own.  include_leaf_size and include_subtree_size as in hb_group. *)
Record gobj := mkGobj { go_data : option gdata; go_wire : tlv }.
(* a builder and the groups it has made *)
Record bst := mkBst { bs_hb : hgb; bs_groups : list gobj }.
Inductive bop := BCall (c : call) | BGroup (nc start : option Z) (leaf sub : bool).
(* One call; when it raises, nothing has changed (HashGroupBuilder.py:52, 66, 83,
   97: the assert comes first). *)
Definition bstep (s : bst) (op : bop) : bst :=
  match op with
  | BCall c => match do_call c (bs_hb s) with Ok b => mkBst b (bs_groups s) | Err _ => s end
  | BGroup nc start leaf sub =>
      match (g <- hb_group (bs_hb s) nc start leaf sub ;; t <- hg_tlv g ;; Ok (mkGobj (hg_data g) t)) with
      | Ok g => mkBst (bs_hb s) (bs_groups s ++ [g])
      | Err _ => s
      end
  end.
Definition brun (s : bst) (ops : list bop) : bst := fold_left bstep ops s.
(* flic/tlvs/HashGroup.py:55-60, Pointers.py:58-59: the pointers of a group *)
Definition go_ptrs (s : bst) (g : gobj) : list hashv := hb_ptrs (bs_hb s).

(* ---------------- Name ---------------- *)

(* core/Name.py:85-92: the list given (None if there is none) and the TLV made
   from it *)
Record nobj := mkNobj { no_list : option nat; no_wire : tlv }.
(* the lists in memory, those the caller holds, and the names *)
Record nst := mkNst { ns_heap : list (list comp); ns_own : list nat; ns_names : list nobj }.
Definition nst0 : nst := mkNst [] [] [].
Definition comps_of (s : nst) (n : nobj) : list comp :=
  match no_list n with None => [] | Some r => nth r (ns_heap s) [] end.
Fixpoint set_nth {A} (l : list A) (k : nat) (a : A) : list A :=
  match l, k with [], _ => [] | _ :: l, O => a :: l | x :: l, S k => x :: set_nth l k a end.

(* The caller makes a list, makes a Name of a list or of nothing, appends to a
   list; Name.append (core/Name.py:122-131), which copies. *)
Inductive nop := NewList (l : list comp) | Make (k : option nat) | Push (k : nat) (c : comp) | Extend (n : nat) (c : comp).
Definition nstep (s : nst) (op : nop) : nst :=
  match op with
  | NewList l => mkNst (ns_heap s ++ [l]) (ns_own s ++ [length (ns_heap s)]) (ns_names s)
  | Make None =>
      match name_tlv [] with Ok t => mkNst (ns_heap s) (ns_own s) (ns_names s ++ [mkNobj None t]) | Err _ => s end
  | Make (Some k) =>
      match nth_error (ns_own s) k with
      | None => s
      | Some r =>
        match name_tlv (nth r (ns_heap s) []) with
        | Ok t => mkNst (ns_heap s) (ns_own s) (ns_names s ++ [mkNobj (Some r) t])
        | Err _ => s
        end
      end
  | Push k c =>
      match nth_error (ns_own s) k with
      | None => s
      | Some r => mkNst (set_nth (ns_heap s) r (nth r (ns_heap s) [] ++ [c])) (ns_own s) (ns_names s)
      end
  | Extend k c =>
      match nth_error (ns_names s) k with
      | None => s
      | Some n =>
        let l := comps_of s n ++ [c] in
        match name_tlv l with
        | Ok t => mkNst (ns_heap s ++ [l]) (ns_own s) (ns_names s ++ [mkNobj (Some (length (ns_heap s))) t])
        | Err _ => s
        end
      end
  end.
Definition nrun (s : nst) (ops : list nop) : nst := fold_left nstep ops s.

(* core/Name.py:148-153 count; len(None) raises *)
Definition no_count (s : nst) (n : nobj) : res Z :=
  match no_list n with None => Err TypeError | Some _ => Ok (zlen (comps_of s n)) end.
(* l[i] (Python): negative indices count from the end *)
Definition list_item {A} (l : list A) (i : Z) : res A :=
  let j := if i <? 0 then zlen l + i else i in
  if j <? 0 then Err IndexError
  else match nth_error l (Z.to_nat j) with Some a => Ok a | None => Err IndexError end.
(* core/Name.py:155-163 component *)
Definition no_component (s : nst) (n : nobj) (i : Z) : res comp :=
  _ <- guard (0 <=? i) AssertionError ;;
  match no_list n with None => Err TypeError | Some _ => list_item (comps_of s n) i end.
(* core/Name.py:106-116 __getitem__: an array, or a str *)
Inductive item := IArray (b : bytes) | IText (t : text).
Definition comp_item (c : comp) : res item :=
  match c_kind c with KArray => Ok (IArray (c_val c)) | KBytes => t <- utf8_decode (c_val c) ;; Ok (IText t) end.
Definition no_item (s : nst) (n : nobj) (i : Z) : res item :=
  match no_list n with
  | None => Err TypeError
  | Some _ => c <- list_item (comps_of s n) i ;; comp_item c
  end.
(* core/Name.py:69-76 is_name_segment, is_chunk_id_segment,
   is_manifest_id_segment *)
Definition is_name_segment (c : comp) : bool := c_type c =? T_NAMESEGMENT.
Definition is_chunk_id_segment (c : comp) : bool := c_type c =? T_CHUNKID.
Definition is_manifest_id_segment (c : comp) : bool := c_type c =? T_MANIFESTID.

(* ---------------- Node, Manifest ---------------- *)

(* flic/tlvs/Node.py:148-160 node_locator; a Locators object has no method
   final *)
Definition node_locator (n : node) : res (option link * option bool) :=
  match n_data n with
  | None => Ok (None, None)
  | Some d => match nd_locators d with None => Ok (None, None) | Some _ => Err AttributeError end
  end.
(* flic/tlvs/Manifest.py:151-166 interest_list; neither a Node nor an
   EncryptedNode has a method locator.  The arguments and the message of the
   TypeError are left out. *)
Definition interest_list (m : manifest) (final : bool) : res (list link) :=
  _ <- (if final then Ok tt else Err AttributeError) ;;
  _ <- (match m_node m with MNode _ => Ok tt | MEnc _ => Err TypeError end) ;;
  Err RuntimeError.
