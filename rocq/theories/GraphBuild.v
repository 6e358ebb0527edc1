(* What a build counts and draws: flic/ManifestFactory.py, flic/tree/TreeBuilder.py
   and flic/ManifestTree.py as in Tree.v, together with the statistics counters
   of the factory and the optional ManifestGraph. *)
From Coq Require Import ZArith List Bool.
From Verif Require Import Py Float Tlv Core Flic Crypto Optimizer Tree Store Uri Graph.
Import ListNotations.
Open Scope Z_scope.

(* ManifestFactory.py:57-60: the graph, which the factory shares with the
   ManifestTree and the TreeBuilder (ManifestTree.py:50-56, 132-139), and
   cnt_manifests and cnt_manifest_bytes *)
Record obs := mkObs { ob_graph : option graph; ob_cnt : Z; ob_bytes : Z }.

(* a step of Tree.v, and a step on the counters and the graph *)
Definition plain {S A} (m : st S A) : st (S * obs) A :=
  fun s => let '(r, t) := m (fst s) in (r, (t, snd s)).
Definition seen {S A} (m : st obs A) : st (S * obs) A :=
  fun s => let '(r, o) := m (snd s) in (r, (fst s, o)).
(* "if self._manifest_graph is not None" *)
Definition graphed (m : st graph unit) : st obs unit :=
  fun o => match ob_graph o with
           | None => (Ok tt, o)
           | Some g => let '(r, g') := m g in (r, mkObs (Some g') (ob_cnt o) (ob_bytes o))
           end.
Definition graph_pause_obs : st obs unit := graphed (smod graph_pause).
Definition graph_resume_obs : st obs unit := graphed (smod graph_resume).

Section Build.
Context (P : prims).
Variable clog : Z -> Z -> Z -> Z.
Variable rnd : nat -> bytes.
Variable now : fl.
(* see Uri.v *)
Variable other_repr : comp -> text.
Notation opts := (opts P).
Notation tenv := (tenv P).

(* ManifestFactory.py:108-111 and TreeBuilder.py:450-455 *)
Definition see_manifest (n : node) (p : packet) : st obs unit :=
  h <~ lift (packet_hash (pr_sha P) p) ;;
  graphed (add_manifest other_repr h n (body_name p)).
(* TreeBuilder.py:457-461; chunk_metadata.name is None *)
Definition see_data (c : cmeta) : st obs unit := graphed (add_data other_repr (cm_hash c) None).
(* ManifestFactory.py:108-113, the rest of build_packet; n is rv.node *)
Definition see_packet (n : node) (p : packet) : st obs unit :=
  _ <~ see_manifest n p ;;
  l <~ lift (packet_len p) ;;
  smod (fun o => mkObs (ob_graph o) (ob_cnt o + 1) (ob_bytes o + l)).

(* ManifestFactory.py:216-242: the plain node that is returned along with the
   manifest *)
Definition groups_node (gs : list hgroup) (defs : option (list ncdef)) (nsize : option Z) : node :=
  mkNode (if negb (is_none nsize) || negb (is_none defs)
          then Some (mkND nsize None None [] (match defs with None => [] | Some l => l end))
          else None) gs None.

(* flic/tree/ManifestSizeCalculator.py:83-109 *)
Definition x_ref_packet (o : opts) (x : nctx) (total num : Z) : st (nat * obs) packet :=
  gs <~ lift (ref_groups x num) ;;
  p <~ plain (fac_packet P rnd now o (SrcGroups gs) None (Some total) None None None None None None false false) ;;
  _ <~ seen (see_packet (groups_node gs None (keep (op_nsize o) (Some total))) p) ;;
  sret p.
(* ManifestSizeCalculator.py:43-81 *)
Definition x_max_pointers (o : opts) (x : nctx) (total : Z) : st (nat * obs) Z :=
  t <~ lift (hashv_tlv ref_hash) ;;
  p <~ x_ref_packet o x total 1 ;;
  l <~ lift (packet_len p) ;;
  _ <~ lift (guard (l <? op_max o) ValueError) ;;
  q <~ lift (int_div (op_max o - l) (tlv_len t)) ;;
  let num := q + 1 in
  p <~ x_ref_packet o x total num ;;
  l <~ lift (packet_len p) ;;
  _ <~ lift (guard (l <=? op_max o) ValueError) ;;
  _ <~ lift (guard (2 <=? num) ValueError) ;;
  sret num.
(* flic/tree/TreeParameters.py:32-60 *)
Definition x_tree_params (o : opts) (x : nctx) (n total : Z) : st (nat * obs) optres :=
  p <~ x_max_pointers o x total ;;
  _ <~ lift (guard (2 <=? p) ValueError) ;;
  let p := match op_degree o with None => p | Some d => Z.min p d end in
  lift (minimize_k_min_waste clog n p).
(* ManifestTree.py:142-150 _calculate_optimal_tree: the graph stays paused if
   there are no parameters *)
Definition x_optimal (o : opts) (x : nctx) (n total : Z) : st (nat * obs) optres :=
  _ <~ seen graph_pause_obs ;;
  r <~ x_tree_params o x n total ;;
  _ <~ seen graph_resume_obs ;;
  sret r.

(* TreeBuilder.py:320-331 _build_packet *)
Definition x_packet (v : tenv) (gs : list hgroup) (dsize isize level : Z) : st (bst * obs) (node * packet) :=
  let nd := if op_nsize (te_opt v) then Some (mkND (Some (dsize + isize)) None None [] [])
            else None in
  let n := mkNode nd gs None in
  _ <~ lift (node_tlv n) ;;
  nm <~ plain (next_name P v level) ;;
  p <~ plain (run_fac (fac_node_packet P rnd now (te_opt v) n nm)) ;;
  _ <~ seen (see_packet n p) ;;
  sret (n, p).

(* TreeBuilder.py:340-343, the loop of _build_leaf_packet *)
Fixpoint x_leaf_loop (v : tenv) (b : hgb) (l : list Z) : st (bst * obs) hgb :=
  match l with
  | [] => sret b
  | i :: l' =>
    c <~ lift (meta_at P v i) ;;
    _ <~ seen (see_data c) ;;
    b <~ lift (hb_append_direct b (cm_hash c) (Some (cm_bytes c))) ;;
    x_leaf_loop v b l'
  end.
(* TreeBuilder.py:333-352 _build_leaf_packet *)
Definition x_leaf_packet (v : tenv) (head tail level : Z) : st (bst * obs) (node * packet) :=
  _ <~ lift (guard (head <? tail) AssertionError) ;;
  b <~ x_leaf_loop v (hb_new (tail - head) 0) (zrange head tail) ;;
  sid <~ lift (start_segment_id P v head) ;;
  g <~ lift (hb_group b (Some (im_nc (nx_data (te_ctx v)))) sid
               (op_gleaf (te_opt v)) (op_gsize (te_opt v))) ;;
  _ <~ plain (smod inc_leafs) ;;
  x_packet v [g] (hb_dsize b) (hb_isize b) level.
(* TreeBuilder.py:374-387 _leaf_manifest *)
Definition x_leaf (v : tenv) (level : Z) : st (bst * obs) (node * packet) :=
  s <~ plain sget ;;
  let start := Z.max (b_head s) (b_tail s - te_p v) in
  np <~ x_leaf_packet v start (b_tail s) level ;;
  _ <~ plain (decrement_tail (b_tail s - start)) ;;
  _ <~ seen (see_manifest (fst np) (snd np)) ;;
  _ <~ plain (smod (wrote (snd np))) ;;
  sret np.

(* TreeBuilder.py:422-425 *)
Fixpoint x_indirect_loop (fuel : nat) (v : tenv) (child : st (bst * obs) (node * packet)) (b : pair)
  : st (bst * obs) pair :=
  s <~ plain sget ;;
  if negb (hb_indirect_full (pr_indirect b)) && negb (seg_empty s) then
    match fuel with
    | O => lift (Err OutOfFuel)
    | S f =>
      np <~ child ;;
      b <~ lift (add_child P v hb_prepend_indirect np b) ;;
      x_indirect_loop f v child b
    end
  else sret b.
(* TreeBuilder.py:416-428 _interior_add_indirect *)
Definition x_add_indirect (v : tenv) (child : st (bst * obs) (node * packet)) (b : pair) : st (bst * obs) pair :=
  s <~ plain sget ;;
  let reserve := Z.min (te_d v) (seg_length s) in
  _ <~ plain (increment_head reserve) ;;
  s <~ plain sget ;;
  b <~ x_indirect_loop (Z.to_nat (seg_length s)) v child b ;;
  _ <~ plain (decrement_head reserve) ;;
  sret b.
(* TreeBuilder.py:430-442 _interior_add_direct *)
Fixpoint x_direct_loop (fuel : nat) (v : tenv) (b : pair) (least : option Z)
  : st (bst * obs) (pair * option Z) :=
  s <~ plain sget ;;
  if negb (hb_direct_full (pr_direct b)) && negb (seg_empty s) then
    match fuel with
    | O => lift (Err OutOfFuel)
    | S f =>
      c <~ lift (meta_at P v (b_tail s - 1)) ;;
      _ <~ seen (see_data c) ;;
      b <~ lift (pr_on_direct (fun b => hb_prepend_direct b (cm_hash c) (Some (cm_bytes c))) b) ;;
      _ <~ plain (decrement_tail 1) ;;
      x_direct_loop f v b (Some (cm_num c))
    end
  else sret (b, least).
Definition x_add_direct (v : tenv) (b : pair) : st (bst * obs) (pair * option Z) :=
  s <~ plain sget ;; x_direct_loop (Z.to_nat (seg_length s)) v b None.
(* TreeBuilder.py:354-372 _interior_packet *)
Definition x_interior_packet (v : tenv) (b : pair) (dstart : option Z) (level : Z)
  : st (bst * obs) (node * packet) :=
  s <~ plain sget ;;
  istart <~ lift (if negb (uses_name_id (nx_man (te_ctx v))) then Ok None
                  else match b_last s with None => Err TypeError | Some i => Ok (Some i) end) ;;
  let dstart := keep (uses_name_id (nx_data (te_ctx v))) dstart in
  gs <~ lift (pr_groups (te_ctx v) b (op_gleaf (te_opt v)) (op_gsize (te_opt v)) dstart istart) ;;
  x_packet v gs (hb_dsize (pr_direct b)) (hb_isize (pr_indirect b)) level.
(* TreeBuilder.py:389-409 _interior_manifest *)
Definition x_interior (v : tenv) (child : st (bst * obs) (node * packet)) (level : Z)
    (right : option (node * packet)) : st (bst * obs) (node * packet) :=
  let b := pr_new (nx_two (te_ctx v)) (te_d v) (te_m v) in
  b <~ lift (match right with
             | None => Ok b
             | Some np => add_child P v hb_append_indirect np b
             end) ;;
  b <~ x_add_indirect v child b ;;
  '(b, dstart) <~ x_add_direct v b ;;
  np <~ x_interior_packet v b dstart level ;;
  _ <~ seen (see_manifest (fst np) (snd np)) ;;
  _ <~ plain (smod (wrote (snd np))) ;;
  _ <~ plain (smod inc_ints) ;;
  sret np.
(* TreeBuilder.py:294-312 _bottom_up_preorder *)
Fixpoint x_bottom_up (v : tenv) (level : nat) (right : option (node * packet))
  : st (bst * obs) (node * packet) :=
  match level with
  | O =>
      _ <~ lift (guard (is_none right) AssertionError) ;;
      x_leaf v 0
  | S l =>
      s <~ plain sget ;;
      if is_none right && (seg_length s <=? te_p v) then x_leaf v (Z.of_nat (S l))
      else x_interior v (x_bottom_up v l None) (Z.of_nat (S l)) right
  end.
(* TreeBuilder.py:252-257 *)
Fixpoint x_build_loop (fuel : nat) (v : tenv) (level : nat) (root : node * packet)
  : st (bst * obs) (node * packet) :=
  s <~ plain sget ;;
  if seg_empty s then sret root
  else match fuel with
       | O => lift (Err OutOfFuel)
       | S f =>
         root <~ x_bottom_up v (S level) (Some root) ;;
         x_build_loop f v (S level) root
       end.
(* TreeBuilder.py:233-257 build *)
Definition x_build (v : tenv) : st (bst * obs) (node * packet) :=
  _ <~ plain seg_check ;;
  root <~ x_leaf v 0 ;;
  s <~ plain sget ;;
  x_build_loop (Z.to_nat (seg_length s)) v 0 root.

(* ManifestTree.py:132-140 _build_tree *)
Definition x_build_top (v : tenv) : st (mst * obs) packet :=
  fun s =>
    match tb_init P v (ms_out (fst s)) (ms_nonce (fst s)) with
    | Err e => (Err e, s)
    | Ok b0 =>
      let '(r, (b, ob)) := x_build v (b0, snd s) in
      (np <- r ;; Ok (snd np), (mkMst (b_out b) (b_nonce b), ob))
    end.
Definition x_on_nonce {A} (m : st (nat * obs) A) : st (mst * obs) A :=
  fun s => let '(r, (k, ob)) := m (ms_nonce (fst s), snd s) in (r, (mkMst (ms_out (fst s)) k, ob)).
(* ManifestTree.py:92-130 _create_root_manifest *)
Definition x_root_packet (o : opts) (x : nctx) (total : Z) (top : packet) : st (nat * obs) packet :=
  h <~ lift (packet_hash (pr_sha P) top) ;;
  p <~ plain (root_packet P rnd now o x total top) ;;
  _ <~ seen (see_packet (groups_node [mkHG (Some (mkGD (keep (op_gsize o) (Some total)) None None None (Some (im_nc (nx_man x)))
                              (if uses_name_id (nx_man x) then Some 0 else None))) (Some [h])]
                           (Some (nctx_defs x)) (keep (op_nsize o) (Some total))) p) ;;
  sret p.
(* ManifestTree.py:85-90 build_root *)
Definition x_build_root (o : opts) (x : nctx) (total : Z) (top : packet) : st (mst * obs) packet :=
  r <~ x_on_nonce (x_root_packet o x total top) ;;
  _ <~ plain (on_out (smod (fun out => out ++ [r]))) ;;
  sret r.
(* ManifestTree.py:33-90 with a manifest_graph or without; the factory is made
   at line 56, its counters start at 0 *)
Definition x_manifest_tree (o : opts) (nc : Z) (data : bytes) : st (mst * obs) packet :=
  x <~ lift (nctx_create P o nc) ;;
  '(meta, total, _) <~ plain (on_out (chunk_data P o (nx_data x) 0 data)) ;;
  r <~ x_on_nonce (x_optimal o x (zlen meta) total) ;;
  top <~ x_build_top (env_of P o x meta r) ;;
  x_build_root o x total top.
End Build.
