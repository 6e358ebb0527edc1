(* flic/tree/ManifestGraph.py: the picture of a manifest tree, and the traversal
   that fills it (flic/tree/Traversal.py with build_graph=True). *)
From Coq Require Import ZArith List Bool.
From Verif Require Import Py Float Tlv Core Flic Crypto Optimizer Tree Store Traversal Uri.
Import ListNotations.
Open Scope Z_scope.

(* A Python dict in insertion order: a new key goes to the end, a known key
   keeps its place. *)
Fixpoint odict_set {K V} (eqb : K -> K -> bool) (k : K) (v : V) (d : list (K * V)) : list (K * V) :=
  match d with
  | [] => [(k, v)]
  | (k', v') :: d' => if eqb k k' then (k', v) :: d' else (k', v') :: odict_set eqb k v d'
  end.
Definition odict_get {K V} (eqb : K -> K -> bool) (k : K) (d : list (K * V)) : option V :=
  option_map snd (find (fun x => eqb k (fst x)) d).

(* ManifestGraph.py:40-45 EntryRecord *)
Record gentry := mkEntry { ge_data : bool; ge_parent : hashv; ge_label : text; ge_kids : list hashv }.

(* The networkx.DiGraph of _create_graph: its nodes with the attributes color
   (here: whether it is the one of data) and label, None for a node that only
   add_edge made; its edges.  The attributes size, shape and weight are
   constants and left out. *)
Record drawing := mkDrawing { dr_nodes : list (text * option (bool * text)); dr_edges : list (text * text) }.

(* ManifestGraph.py:47-53; _not_child, _is_child and _is_data are never used *)
Record graph := mkGraph
  { gr_entries : list (hashv * gentry); gr_graph : option drawing; gr_paused : bool }.
Definition graph_new : graph := mkGraph [] None false.

(* ManifestGraph.py:58-63 *)
Definition graph_pause (g : graph) : graph := mkGraph (gr_entries g) (gr_graph g) true.
Definition graph_resume (g : graph) : graph := mkGraph (gr_entries g) (gr_graph g) false.

(* ManifestGraph.py:184-188 _hash_to_name with core/DisplayFormatter.py:20-24
   hexlify, whose text starts with "0x" *)
Definition hash_to_name (h : hashv) : text := ztake 8 (48 :: 120 :: hex (h_val h)).

(* flic/tlvs/Node.py:162-171 Node.hash_values; iterating over the pointers None
   raises TypeError *)
Definition node_hash_values (n : node) : res (list hashv) :=
  l <- mapM (fun g => match hg_ptrs g with Some l => Ok l | None => Err TypeError end) (n_groups n) ;;
  Ok (concat l).

(* networkx DiGraph.add_node and add_edge, and the dict of its nodes *)
Definition draw_node (nm : text) (c : bool) (label : text) (d : drawing) : drawing :=
  mkDrawing (odict_set beqb nm (Some (c, label)) (dr_nodes d)) (dr_edges d).
Definition touch_node (nm : text) (ns : list (text * option (bool * text))) : list (text * option (bool * text)) :=
  match odict_get beqb nm ns with Some _ => ns | None => odict_set beqb nm None ns end.
Definition edge_eqb (a b : text * text) : bool := beqb (fst a) (fst b) && beqb (snd a) (snd b).
Definition draw_edge (a b : text) (d : drawing) : drawing :=
  mkDrawing (touch_node b (touch_node a (dr_nodes d)))
    (if existsb (edge_eqb (a, b)) (dr_edges d) then dr_edges d else dr_edges d ++ [(a, b)]).
(* ManifestGraph.py:113-134 _create_graph *)
Definition draw_entry (d : drawing) (e : gentry) : drawing :=
  let a := hash_to_name (ge_parent e) in
  fold_left (fun d h => draw_edge a (hash_to_name h) d) (ge_kids e) (draw_node a (ge_data e) (ge_label e) d).
Definition create_graph (es : list (hashv * gentry)) : drawing :=
  fold_left draw_entry (map snd es) (mkDrawing [] []).
(* ManifestGraph.py:99-106 save and 136-138 of plot: the drawing handed to
   networkx *)
Definition graph_drawing (g : graph) : drawing * graph :=
  match gr_graph g with
  | Some d => (d, g)
  | None => let d := create_graph (gr_entries g) in (d, mkGraph (gr_entries g) (Some d) (gr_paused g))
  end.
(* ManifestGraph.py:162-168 of plot: the colors and the labels of the nodes;
   what follows hands them to matplotlib *)
Definition plot_nodes (d : drawing) : res (list (text * (bool * text))) :=
  mapM (fun x => match snd x with Some a => Ok (fst x, a) | None => Err KeyError end) (dr_nodes d).

Section Graph.
Variable P : prims.
(* see Uri.v *)
Variable other_repr : comp -> text.

(* ManifestGraph.py:65-73 _label_from_name; Name.component asserts that the
   index is not negative (core/Name.py:155-163) *)
Definition label_from_name (h : hashv) (nm : option name) : res text :=
  match nm with
  | None => Ok (hash_to_name h)
  | Some n =>
    match rev n with
    | [] => Err AssertionError
    | c :: _ =>
      if (c_type c =? T_MANIFESTID) || (c_type c =? T_CHUNKID) then Ok (dec (array_to_number (c_val c)))
      else as_uri other_repr n
    end
  end.

(* ManifestGraph.py:75-86 add_manifest and 88-97 add_data; the children are
   computed first.  _invalidate_graph is 55-56. *)
Definition add_entry (is_data : bool) (h : hashv) (kids : res (list hashv)) (nm : option name) : st graph unit :=
  fun g =>
  if gr_paused g then (Ok tt, g)
  else
    match (ks <- kids ;; l <- label_from_name h nm ;; Ok (mkEntry is_data h l ks)) with
    | Err e => (Err e, mkGraph (gr_entries g) None (gr_paused g))
    | Ok x => (Ok tt, mkGraph (odict_set hashv_key_eqb h x (gr_entries g)) None (gr_paused g))
    end.
Definition add_manifest (h : hashv) (n : node) (nm : option name) : st graph unit :=
  add_entry false h (node_hash_values n) nm.
Definition add_data (h : hashv) (nm : option name) : st graph unit := add_entry true h (Ok []) nm.

(* ---------------- Traversal with build_graph=True ---------------- *)

Variable get : option name -> option hashv -> res packet.
Variable wr : bool.

(* the state of Traversal.v and self._manifest_graph (Traversal.py:70) *)
Definition gst : Type := tst P * graph.
Definition on_ts {A} (m : st (tst P) A) : st gst A :=
  fun s => let '(r, t) := m (fst s) in (r, (t, snd s)).
Definition on_graph {A} (m : st graph A) : st gst A :=
  fun s => let '(r, g) := m (snd s) in (r, (fst s, g)).

(* Traversal.py:145-170 _visit_children, as in Traversal.v *)
Fixpoint gvisit_children (go : packet -> st gst unit) (c : ncache) (kids : list hiv) : st gst unit :=
  match kids with
  | [] => sret tt
  | i :: kids' =>
    p <~ lift (fetch_packet get c i) ;;
    _ <~ on_ts (validate P p) ;;
    _ <~ go p ;;
    gvisit_children go c kids'
  end.
(* Traversal.py:93-138 preorder: 116-117 adds manifests to the graph, 132-133
   data objects.  add_manifest asks manifest.node() for hash_values(), which an
   EncryptedNode does not have; a decrypted manifest never has one.
   content_object_hash() is the hash computed when the packet was made. *)
Fixpoint gpreorder (fuel : nat) (c : ncache) (p : packet) : st gst unit :=
  match fuel with
  | O => lift (Err OutOfFuel)
  | S f =>
    _ <~ on_ts (smod (fun s => mkTs (ts_count s + 1) (ts_out s) (ts_dc s))) ;;
    match p_body p with
    | BInterest _ => lift (Err TypeError)
    | BCO b =>
      match co_ptype b with
      | None => lift (Err AttributeError)
      | Some t =>
        if t =? PT_MANIFEST then
          m <~ lift (man_from_content b) ;;
          m <~ on_ts (t_decrypt P m) ;;
          _ <~ match m_node m with
               | MEnc _ => lift (Err AttributeError)
               | MNode n => h <~ lift (packet_hash (pr_sha P) p) ;; on_graph (add_manifest h n (body_name p))
               end ;;
          c <~ lift (update_nc_cache c m) ;;
          let '(kids, e) := man_hash_values m in
          _ <~ gvisit_children (gpreorder f c) c kids ;;
          match e with Some e => lift (Err e) | None => sret tt end
        else if t =? PT_DATA then
          h <~ lift (packet_hash (pr_sha P) p) ;;
          _ <~ on_graph (add_data h (body_name p)) ;;
          on_ts (write_data P wr (co_payload b))
        else lift (Err ValueError)
      end
    end
  end.
(* Traversal.py:82-91 traverse *)
Definition gtraverse (fuel : nat) (root : option name) (h : option hashv) : st gst unit :=
  p <~ lift (get root h) ;;
  _ <~ on_ts (validate P p) ;;
  gpreorder fuel [] p.
End Graph.
