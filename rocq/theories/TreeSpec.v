(* What a manifest tree is, stated without reference to how it is built. *)
From Coq Require Import ZArith List Bool.
From Verif Require Import Py Float Tlv Core Flic Crypto Optimizer OptimizerProofs Tree.
Import ListNotations.
Open Scope Z_scope.

(* A manifest of a tree: its level (0 at the bottom), manifest id, the number
   of the nonce used to encrypt it, node, name and packet. *)
Record minfo := mkMI
  { mi_level : Z; mi_id : Z; mi_nonce : nat; mi_node : node; mi_name : option name;
    mi_pkt : packet }.

(* A leaf points to the chunks lo .. hi-1.  An interior manifest points to the
   chunks lo .. hi-1 and then to the manifests [kids]. *)
Inductive tree :=
| Leaf (i : minfo) (lo hi : Z)
| Inner (i : minfo) (lo hi : Z) (kids : list tree).

Definition top (t : tree) : minfo := match t with Leaf i _ _ | Inner i _ _ _ => i end.

(* chunks met by a preorder walk *)
Fixpoint chunks (t : tree) : list Z :=
  match t with
  | Leaf _ lo hi => zrange lo hi
  | Inner _ lo hi kids => zrange lo hi ++ flat_map chunks kids
  end.

(* manifests, children before parents and right before left *)
Fixpoint infos (t : tree) : list minfo :=
  match t with
  | Leaf i _ _ => [i]
  | Inner i _ _ kids => concat (rev (map infos kids)) ++ [i]
  end.
Definition forest_infos (ts : list tree) : list minfo := concat (rev (map infos ts)).

(* ids of the manifests at one level, left to right *)
Fixpoint ids_at (l : Z) (t : tree) : list Z :=
  match t with
  | Leaf i _ _ => if mi_level i =? l then [mi_id i] else []
  | Inner i _ _ kids =>
      (if mi_level i =? l then [mi_id i] else []) ++ flat_map (ids_at l) kids
  end.

(* all subtrees *)
Fixpoint subtrees (t : tree) : list tree :=
  t :: match t with Leaf _ _ _ => [] | Inner _ _ _ kids => flat_map subtrees kids end.

Definition zsum (l : list Z) : Z := fold_right Z.add 0 l.
Fixpoint leaves (t : tree) : Z :=
  match t with Leaf _ _ _ => 1 | Inner _ _ _ kids => zsum (map leaves kids) end.
Fixpoint inners (t : tree) : Z :=
  match t with Leaf _ _ _ => 0 | Inner _ _ _ kids => 1 + zsum (map inners kids) end.

(* chunks that a full tree of height l holds, with d direct and m indirect
   pointers per interior manifest and d + m per leaf *)
Fixpoint capacity (d m : Z) (l : nat) : Z :=
  match l with O => d + m | S l' => d + m * capacity d m l' end.

Section Wf.
Context (P : prims).
Variable rnd : nat -> bytes.
Variable now : fl.
Variable v : tenv P.

Definition no_chunk : cmeta := mkCM (-1) 0 (mkHash 0 []).
Definition chunk_meta (i : Z) : cmeta := nth (Z.to_nat i) (te_meta v) no_chunk.
Definition chunk_hashes (lo hi : Z) : list hashv :=
  map (fun i => cm_hash (chunk_meta i)) (zrange lo hi).
Definition chunk_bytes (l : list Z) : Z := zsum (map (fun i => cm_bytes (chunk_meta i)) l).
(* file bytes below a subtree *)
Definition bytes_of (t : tree) : Z := chunk_bytes (chunks t).

Definition no_hash : hashv := mkHash 0 [].
Definition pkt_hash (p : packet) : hashv :=
  match packet_hash (pr_sha P) p with Ok h => h | Err _ => no_hash end.

(* the manifest was made by the factory from its node, under the name that the
   manifest schema gives for its id, and has a hash *)
Definition made (i : minfo) : Prop :=
  impl_name (nx_man (te_ctx v)) (Some (mi_id i)) = Ok (mi_name i) /\
  fst (fac_node_packet P rnd now (te_opt v) (mi_node i) (mi_name i) (mi_nonce i))
    = Ok (mi_pkt i) /\
  packet_hash (pr_sha P) (mi_pkt i) = Ok (pkt_hash (mi_pkt i)).

Let o := te_opt v.
Let x := te_ctx v.
Definition opt_if {A} (b : bool) (a : A) : option A := if b then Some a else None.

(* the size annotation of a node whose subtree holds [b] file bytes *)
Definition size_data (b : Z) : option ndata :=
  opt_if (op_nsize o) (mkND (Some b) None None [] []).

(* the node of a leaf *)
Definition leaf_node (lo hi : Z) : node :=
  let b := chunk_bytes (zrange lo hi) in
  mkNode (size_data b)
    [mkHG (Some (mkGD (opt_if (op_gsize o) b) None (opt_if (op_gleaf o) b) None
                   (Some (im_nc (nx_data x)))
                   (opt_if (uses_name_id (nx_man x)) (cm_num (chunk_meta lo)))))
          (Some (chunk_hashes lo hi))] None.

(* the bytes below the children that an interior manifest accounts for: none
   if nodes carry no sizes *)
Definition kids_bytes (kids : list tree) : Z :=
  if op_nsize o then zsum (map bytes_of kids) else 0.
Definition kid_hashes (kids : list tree) : list hashv :=
  map (fun t => pkt_hash (mi_pkt (top t))) kids.
Definition first_id (kids : list tree) : Z :=
  match kids with [] => -1 | t :: _ => mi_id (top t) end.

(* the node of an interior manifest *)
Definition inner_node (lo hi : Z) (kids : list tree) : node :=
  let b := chunk_bytes (zrange lo hi) in
  let kb := kids_bytes kids in
  mkNode (size_data (b + kb))
    (if nx_two x then
       [mkHG (Some (mkGD (opt_if (op_gsize o) b) None (opt_if (op_gleaf o) b) None
                      (Some (im_nc (nx_data x)))
                      (opt_if (uses_name_id (nx_data x)) (cm_num (chunk_meta lo)))))
             (Some (chunk_hashes lo hi));
        mkHG (Some (mkGD (opt_if (op_gsize o) kb) None (opt_if (op_gleaf o) 0) None
                      (Some (im_nc (nx_man x)))
                      (opt_if (uses_name_id (nx_man x)) (first_id kids))))
             (Some (kid_hashes kids))]
     else
       [mkHG (Some (mkGD (opt_if (op_gsize o) (b + kb)) None (opt_if (op_gleaf o) b) None
                      (Some (im_nc (nx_man x))) None))
             (Some (chunk_hashes lo hi ++ kid_hashes kids))]) None.

(* the chunks below [kids] are those from hi on *)
Definition follows (hi : Z) (kids : list tree) : Prop :=
  exists e, hi <= e <= zlen (te_meta v) /\ flat_map chunks kids = zrange hi e.

(* a well-formed tree whose top is at level l *)
Fixpoint wf (l : nat) (t : tree) : Prop :=
  match t with
  | Leaf i lo hi =>
      mi_level i = Z.of_nat l /\ made i /\
      0 <= lo < hi /\ hi <= zlen (te_meta v) /\ hi - lo <= te_p v /\
      mi_node i = leaf_node lo hi
  | Inner i lo hi kids =>
      match l with
      | O => False
      | S l' =>
          mi_level i = Z.of_nat l /\ made i /\
          0 <= lo < hi /\ follows hi kids /\ hi - lo <= te_d v /\
          kids <> [] /\ zlen kids <= te_m v /\
          mi_node i = inner_node lo hi kids /\
          (* the children have consecutive ids *)
          map (fun t => mi_id (top t)) kids
            = zrange (first_id kids) (first_id kids + zlen kids) /\
          Forall (wf l') kids
      end
  end.

(* the nodes that the builder may try to encode: of a leaf, or of an interior
   manifest over finished subtrees, with no more pointers than allowed *)
Definition planned (nd : node) : Prop :=
  (exists lo hi, 0 <= lo < hi /\ hi <= zlen (te_meta v) /\ hi - lo <= te_p v /\ nd = leaf_node lo hi) \/
  (exists l lo hi kids, 0 <= lo < hi /\ follows hi kids /\ hi - lo <= te_d v /\
     kids <> [] /\ zlen kids <= te_m v /\ Forall (wf l) kids /\
     map (fun t => mi_id (top t)) kids = zrange (first_id kids) (first_id kids + zlen kids) /\
     nd = inner_node lo hi kids).

(* Nothing is left empty that could be filled: an interior manifest has d direct
   pointers, or its only child is full; all children except the leftmost are
   full. *)
Fixpoint packed (l : nat) (t : tree) : Prop :=
  match t with
  | Leaf _ _ _ => True
  | Inner _ lo hi kids =>
      match l with
      | O => False
      | S l' =>
          let is_full k := zlen (chunks k) = capacity (te_d v) (te_m v) l' in
          (hi - lo = te_d v \/ exists k, kids = [k] /\ is_full k) /\
          Forall is_full (tl kids) /\
          Forall (packed l') kids
      end
  end.
End Wf.

(* ---------------- what a tree shows to the outside ---------------- *)

Section Shows.
Context (P : prims).
Variable rnd : nat -> bytes.
Variable v : tenv P.

(* what a pointer points to: a chunk of the file or another manifest *)
Inductive target := TChunk (i : Z) | TKid (t : tree).
Definition targets (t : tree) : list target :=
  match t with
  | Leaf _ lo hi => map TChunk (zrange lo hi)
  | Inner _ lo hi kids => map TChunk (zrange lo hi) ++ map TKid kids
  end.
(* its hash, the file bytes below it, those of them in a data object directly
   pointed to, and the number in its name *)
Definition tg_hash (x : target) : hashv :=
  match x with
  | TChunk i => cm_hash (chunk_meta P v i)
  | TKid t => pkt_hash P (mi_pkt (top t))
  end.
Definition tg_bytes (x : target) : Z :=
  match x with TChunk i => cm_bytes (chunk_meta P v i) | TKid t => bytes_of P v t end.
Definition tg_direct (x : target) : Z :=
  match x with TChunk i => cm_bytes (chunk_meta P v i) | TKid _ => 0 end.
Definition tg_num (x : target) : Z :=
  match x with TChunk i => cm_num (chunk_meta P v i) | TKid t => mi_id (top t) end.
(* the name constructor for it *)
Definition tg_impl (x : target) : impl :=
  match x with TChunk _ => nx_data (te_ctx v) | TKid _ => nx_man (te_ctx v) end.

(* all pointers of a node, in order *)
Definition node_ptrs (n : node) : list hashv :=
  flat_map (fun g => match hg_ptrs g with Some l => l | None => [] end) (n_groups n).

(* p is a manifest packet with this name that carries the node, in clear or
   encrypted with the k-th nonce *)
Definition manifest_for (nd : node) (k : nat) (m : manifest) : Prop :=
  match op_enc (te_opt v) with
  | ENone => m = mkMan None (MNode nd) None
  | EAead a => aead_create_manifest P a (rnd k) nd = Ok m
  | EOaep i => oaep_create_manifest P i false (rnd k) nd = Ok m
  end.
Definition carries (nd : node) (k : nat) (nm : option name) (p : packet) : Prop :=
  exists m w, manifest_for nd k m /\ man_wire m = Ok w /\ zlen w <= op_max (te_opt v) /\
    p_body p = BCO (mkCO nm (Some PT_MANIFEST) (Some w) (op_mexp (te_opt v)) None) /\
    p_alg p = None /\
    (p_vpl p = None /\ create_content_object (mkCO nm (Some PT_MANIFEST) (Some w) (op_mexp (te_opt v)) None) = Ok p) /\
    exists b, packet_wire p = Ok b.

(* the manifest at the top of u is a packet that carries a node with exactly
   the pointers to its targets, and is named by its id *)
Definition faithful (u : tree) : Prop :=
  let i := top u in
  carries (mi_node i) (mi_nonce i) (mi_name i) (mi_pkt i) /\
  impl_name (nx_man (te_ctx v)) (Some (mi_id i)) = Ok (mi_name i) /\
  packet_hash (pr_sha P) (mi_pkt i) = Ok (pkt_hash P (mi_pkt i)) /\
  node_ptrs (mi_node i) = map tg_hash (targets u).

(* the tree t is what the build put to the output, after [out], and np its top *)
Definition shows (out : list packet) (s : bst) (np : node * packet) (t : tree) : Prop :=
  np = (mi_node (top t), mi_pkt (top t)) /\
  b_out s = out ++ map mi_pkt (infos t) /\
  Forall faithful (subtrees t).
End Shows.

(* what NameConstructorContext.create produces: two different constructors of
   the same kind, or one that does not use ids *)
Definition ctx_wf (x : nctx) : Prop :=
  if nx_two x then im_nc (nx_man x) <> im_nc (nx_data x) /\
                   uses_name_id (nx_man x) = uses_name_id (nx_data x)
  else nx_data x = nx_man x /\ uses_name_id (nx_man x) = false.

(* parameters with which a tree can be built *)
Definition usable {P} (v : tenv P) : Prop :=
  1 <= te_d v /\ 1 <= te_m v /\ 0 <= te_h v /\
  1 <= zlen (te_meta v) <= capacity (te_d v) (te_m v) (Z.to_nat (te_h v)) /\
  full (te_m v) (Z.to_nat (te_h v + 1)) < 2 ^ 53 /\ ctx_wf (te_ctx v).

(* the subtrees in the order in which their manifests are written *)
Fixpoint order (t : tree) : list tree :=
  match t with
  | Leaf _ _ _ => [t]
  | Inner _ _ _ kids => concat (rev (map order kids)) ++ [t]
  end.
Definition forest_order (ts : list tree) : list tree := concat (rev (map order ts)).
(* children come before their parents *)
Definition kids_first (us : list tree) : Prop :=
  forall pre u post, us = pre ++ u :: post -> forall k, In (TKid k) (targets u) -> In k pre.
