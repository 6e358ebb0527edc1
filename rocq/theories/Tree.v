(* Name constructors, chunking, manifest factory, tree builder and
   ManifestTree: everything that turns a file into packets. *)
From Coq Require Import ZArith List Bool.
From Verif Require Import Py Float Tlv Core Flic Crypto Optimizer.
Import ListNotations.
Open Scope Z_scope.

(* ---------------- state and exceptions ---------------- *)

(* A method that works on mutable state and may raise; the state reached is
   kept when it raises, so what was written before the exception stays
   visible. *)
Definition st (S A : Type) : Type := S -> res A * S.
Definition sret {S A} (a : A) : st S A := fun s => (Ok a, s).
Definition sbind {S A B} (m : st S A) (k : A -> st S B) : st S B :=
  fun s => match m s with
           | (Ok a, s') => k a s'
           | (Err e, s') => (Err e, s')
           end.
(* a call that does not touch the state *)
Definition lift {S A} (r : res A) : st S A := fun s => (r, s).
Definition sget {S} : st S S := fun s => (Ok s, s).
Definition smod {S} (f : S -> S) : st S unit := fun s => (Ok tt, f s).
Notation "x <~ m ;; k" := (sbind m (fun x => k))
  (at level 61, m at next level, right associativity).
Notation "' p <~ m ;; k" := (sbind m (fun p => k))
  (at level 61, p pattern, m at next level, right associativity).

(* ---------------- name constructors ---------------- *)

(* A SchemaImpl object: flic/name_constructor/SchemaImpl.py:39-44.  The chunk
   counter _next_chunk_id is a parameter of chunk_data below. *)
Record impl := mkImpl { im_nc : Z; im_schema : schema }.

(* flic/tlvs/NcSchema.py:106-113, 145-147 count() *)
Definition schema_count (s : schema) : Z :=
  match s with
  | SHash ls _ | SPrefix _ ls _ | SSeg _ _ ls _ =>
      match ls with None => 0 | Some l => zlen l end
  end.

(* the three constructors: SchemaImpl.py:39-44 (builds the NcDef) and
   HashSchemaImpl.py:30-33, PrefixSchemaImpl.py:32-38,
   SegmentedSchemaImpl.py:32-44 *)
Definition impl_make (nc : Z) (s : schema) : res impl :=
  _ <- ncdef_tlv (mkNcDef (Some nc) (Some s)) ;;
  _ <- match s with
       | SHash _ _ => guard (schema_count s =? 1) AssertionError
       | _ => guard (schema_count s <=? 0) ValueError
       end ;;
  Ok (mkImpl nc s).

(* SchemaImpl.nc_def, SchemaImpl.py:43,62-63 *)
Definition impl_ncdef (i : impl) : ncdef := mkNcDef (Some (im_nc i)) (Some (im_schema i)).

(* get_name: HashSchemaImpl.py:35-39, PrefixSchemaImpl.py:40-44,
   SegmentedSchemaImpl.py:49-53 with flic/tlvs/SuffixComponentType.py:51-52.
   A missing id makes number_to_array(None) raise TypeError. *)
Definition impl_name (i : impl) (id : option Z) : res (option name) :=
  match im_schema i with
  | SHash _ _ => Ok None
  | SPrefix nm _ _ => Ok nm
  | SSeg None _ _ _ => Err AttributeError
  | SSeg (Some _) None _ _ => Err AttributeError
  | SSeg (Some n) (Some ty) _ _ =>
      match id with
      | None => Err TypeError
      | Some v =>
          a <- number_to_array v ;;
          let c := mkComp ty KArray a in
          _ <- comp_tlv c ;;
          let n' := n ++ [c] in
          _ <- name_tlv n' ;; Ok (Some n')
      end
  end.

(* SchemaImpl.py:77-80, SegmentedSchemaImpl.py:61-63 *)
Definition uses_name_id (i : impl) : bool :=
  match im_schema i with SSeg _ _ _ _ => true | _ => false end.
(* SchemaImpl.py:82-85, SegmentedSchemaImpl.py:65-66 *)
Definition uses_final_chunk_id (i : impl) : res bool :=
  match im_schema i with
  | SSeg _ None _ _ => Err AttributeError
  | SSeg _ (Some ty) _ _ => Ok (ty =? T_CHUNKID)
  | _ => Ok false
  end.

(* flic/name_constructor/SchemaType.py *)
Inductive stype := Hashed | Prefixed | Segmented.

(* ManifestTreeOptions.manifest_encryptor: None, AeadEncryptor or
   RsaOaepEncryptor *)
Inductive encryptor := ENone | EAead (p : aparams) | EOaep (i : oimpl).

(* == on two Optional[Name]: core/Name.py:97-98 compares other.__dict__, which
   None does not have *)
Definition opt_name_eq (a b : option name) : res bool :=
  match a, b with
  | None, None => Ok true
  | Some x, Some y => Ok (name_eq x y)
  | _, _ => Err AttributeError
  end.

(* == on two Locators: flic/tlvs/Locators.py:72-75 and core/Link.py:71-72
   compare all fields; a Locator always has a name (Locator.py:57-58). *)
Definition opt_hash_eq (a b : option hashv) : bool :=
  match a, b with
  | None, None => true
  | Some x, Some y => hashv_eq x y
  | _, _ => false
  end.
Definition link_eq (a b : link) : bool :=
  match l_name a, l_name b with
  | Some x, Some y => name_eq x y
  | None, None => true
  | _, _ => false
  end
  && opt_hash_eq (l_keyid a) (l_keyid b)
  && opt_hash_eq (l_digest a) (l_digest b)
  && match link_wire a, link_wire b with
     | Ok x, Ok y => beqb x y
     | _, _ => false
     end.
Fixpoint links_eq (a b : list link) : bool :=
  match a, b with
  | [], [] => true
  | x :: a', y :: b' => link_eq x y && links_eq a' b'
  | _, _ => false
  end.

(* flic/name_constructor/NameConstructorContext.py:26-39: the two impls, and
   whether they are different objects (hash_group_count() == 2) *)
Record nctx := mkNctx { nx_man : impl; nx_data : impl; nx_two : bool }.

(* NameConstructorContext.py:41-46 nc_def *)
Definition nctx_defs (x : nctx) : list ncdef :=
  if nx_two x then [impl_ncdef (nx_man x); impl_ncdef (nx_data x)]
  else [impl_ncdef (nx_man x)].

(* flic/name_constructor/FileMetadata.py:22-32 (ChunkMetadata); the name field
   is never set *)
Record cmeta := mkCM { cm_num : Z; cm_bytes : Z; cm_hash : hashv }.

(* len(packet): core/Packet.py:85-87 *)
Definition packet_len (p : packet) : res Z := w <- packet_wire p ;; Ok (zlen w).

(* ---------------- HashGroupBuilder ---------------- *)

(* flic/HashGroupBuilder.py:33-40; the default bound math.inf is not used by
   the modelled callers *)
Record hgb := mkHB
  { hb_ptrs : list hashv; hb_dsize : Z; hb_isize : Z; hb_dcount : Z; hb_icount : Z;
    hb_maxd : Z; hb_maxi : Z }.
Definition hb_new (maxd maxi : Z) : hgb := mkHB [] 0 0 0 0 maxd maxi.

(* "if x is not None: total += x" *)
Definition add_opt (t : Z) (x : option Z) : Z := match x with None => t | Some v => t + v end.

(* HashGroupBuilder.py:42-43, 73-74 *)
Definition hb_direct_full (b : hgb) : bool := hb_maxd b <=? hb_dcount b.
Definition hb_indirect_full (b : hgb) : bool := hb_maxi b <=? hb_icount b.
(* HashGroupBuilder.py:45-57 append_direct *)
Definition hb_append_direct (b : hgb) (h : hashv) (sz : option Z) : res hgb :=
  _ <- guard (hb_dcount b <? hb_maxd b) AssertionError ;;
  Ok (mkHB (hb_ptrs b ++ [h]) (add_opt (hb_dsize b) sz) (hb_isize b)
       (hb_dcount b + 1) (hb_icount b) (hb_maxd b) (hb_maxi b)).
(* HashGroupBuilder.py:59-71 prepend_direct *)
Definition hb_prepend_direct (b : hgb) (h : hashv) (sz : option Z) : res hgb :=
  _ <- guard (hb_dcount b <? hb_maxd b) AssertionError ;;
  Ok (mkHB (h :: hb_ptrs b) (add_opt (hb_dsize b) sz) (hb_isize b)
       (hb_dcount b + 1) (hb_icount b) (hb_maxd b) (hb_maxi b)).
(* HashGroupBuilder.py:76-88 append_indirect *)
Definition hb_append_indirect (b : hgb) (h : hashv) (sz : option Z) : res hgb :=
  _ <- guard (hb_icount b <? hb_maxi b) AssertionError ;;
  Ok (mkHB (hb_ptrs b ++ [h]) (hb_dsize b) (add_opt (hb_isize b) sz)
       (hb_dcount b) (hb_icount b + 1) (hb_maxd b) (hb_maxi b)).
(* HashGroupBuilder.py:90-102 prepend_indirect *)
Definition hb_prepend_indirect (b : hgb) (h : hashv) (sz : option Z) : res hgb :=
  _ <- guard (hb_icount b <? hb_maxi b) AssertionError ;;
  Ok (mkHB (h :: hb_ptrs b) (hb_dsize b) (add_opt (hb_isize b) sz)
       (hb_dcount b) (hb_icount b + 1) (hb_maxd b) (hb_maxi b)).
(* HashGroupBuilder.py:129-155 hash_group *)
Definition hb_group (b : hgb) (nc start : option Z) (leaf sub : bool) : res hgroup :=
  let gd :=
    if leaf || sub || negb (is_none nc) || negb (is_none start) then
      Some (mkGD (if sub then Some (hb_isize b + hb_dsize b) else None) None
                 (if leaf then Some (hb_dsize b) else None) None nc start)
    else None in
  let g := mkHG gd (Some (hb_ptrs b)) in
  _ <- hg_tlv g ;; Ok g.

(* flic/tree/HashGroupBuilderPair.py:30-39: one shared builder, or one for
   direct and one for indirect pointers *)
Inductive pair := One (b : hgb) | Two (d i : hgb).
Definition pr_new (two : bool) (maxd maxi : Z) : pair :=
  if two then Two (hb_new maxd 0) (hb_new 0 maxi) else One (hb_new maxd maxi).
Definition pr_direct (p : pair) : hgb := match p with One b => b | Two d _ => d end.
Definition pr_indirect (p : pair) : hgb := match p with One b => b | Two _ i => i end.
(* HashGroupBuilderPair.py:41-54: the facade methods *)
Definition pr_on_direct (f : hgb -> res hgb) (p : pair) : res pair :=
  match p with
  | One b => b' <- f b ;; Ok (One b')
  | Two d i => d' <- f d ;; Ok (Two d' i)
  end.
Definition pr_on_indirect (f : hgb -> res hgb) (p : pair) : res pair :=
  match p with
  | One b => b' <- f b ;; Ok (One b')
  | Two d i => i' <- f i ;; Ok (Two d i')
  end.
(* HashGroupBuilderPair.py:62-88 hash_groups *)
Definition pr_groups (x : nctx) (p : pair) (leaf sub : bool) (dstart istart : option Z)
  : res (list hgroup) :=
  match p with
  | One b =>
      _ <- guard (is_none dstart) AssertionError ;;
      _ <- guard (is_none istart) AssertionError ;;
      g <- hb_group b (Some (im_nc (nx_man x))) None leaf sub ;; Ok [g]
  | Two d i =>
      g1 <- hb_group d (Some (im_nc (nx_data x))) dstart leaf sub ;;
      g2 <- hb_group i (Some (im_nc (nx_man x))) istart leaf sub ;;
      Ok [g1; g2]
  end.

Section Tree.
Context (P : prims).
(* int(ceil(math.log(x, b) - s)), see Optimizer.v *)
Variable clog : Z -> Z -> Z -> Z.
(* os.urandom: the i-th nonce drawn by the process *)
Variable rnd : nat -> bytes.
(* time.time() when the root manifest is signed *)
Variable now : fl.

(* flic/ManifestTreeOptions.py:48-71.  The four *_digest flags are not read by
   any code; debug only prints.  add_node_subtree_size etc. are op_nsize,
   op_gsize, op_gleaf. *)
Record opts := mkOpts
  { op_name : option name; op_type : stype; op_signer : option (signer P);
    op_mprefix : option name; op_dprefix : option name;
    op_mlocs : option (list link); op_dlocs : option (list link);
    op_rexp : option fl; op_mexp : option fl; op_dexp : option fl;
    op_enc : encryptor;
    op_nsize : bool; op_gsize : bool; op_gleaf : bool;
    op_degree : option Z; op_max : Z }.

(* flic/name_constructor/SchemaImplFactory.py:51-70 create, without taking the
   next id from the class counter *)
Definition schema_create (o : opts) (nc : Z) (locs : option (list link)) (nm : option name)
    (for_manifest : bool) : res impl :=
  match op_type o with
  | Hashed => impl_make nc (SHash locs None)
  | Prefixed => impl_make nc (SPrefix nm None None)
  | Segmented => impl_make nc (SSeg nm (Some (if for_manifest then T_MANIFESTID else T_CHUNKID)) None None)
  end.

(* NameConstructorContext.py:48-122 create; [nc] is the class-level counter
   SchemaImplFactory._next_nc_id at the call *)
Definition nctx_two (o : opts) (nc : Z) (ml dl : option (list link)) (mn dn : option name)
  : res nctx :=
  m <- schema_create o nc ml mn true ;;
  d <- schema_create o (nc + 1) dl dn false ;;
  Ok (mkNctx m d true).
Definition nctx_one (o : opts) (nc : Z) (l : option (list link)) (n : option name) : res nctx :=
  i <- schema_create o nc l n false ;; Ok (mkNctx i i false).
(* NameConstructorContext.py:59-80 *)
Definition create_hashed (o : opts) (nc : Z) : res nctx :=
  let root := [mkLink (op_name o) None None] in
  _ <- locs_tlv root ;;
  let ml := match op_mlocs o with None => root | Some l => l end in
  let dl := match op_dlocs o with None => root | Some l => l end in
  if links_eq ml dl then nctx_one o nc (Some ml) None
  else nctx_two o nc (Some ml) (Some dl) None None.
(* NameConstructorContext.py:82-104 *)
Definition create_named (o : opts) (nc : Z) (mp dp : option name) : res nctx :=
  e <- opt_name_eq mp dp ;;
  if e then nctx_one o nc None mp else nctx_two o nc None None mp dp.
(* NameConstructorContext.py:106-122 *)
Definition prefixes (o : opts) : option name * option name :=
  (match op_mprefix o with None => op_name o | p => p end,
   match op_dprefix o with None => op_name o | p => p end).
Definition create_segmented (o : opts) (nc : Z) : res nctx :=
  _ <- guard (negb (is_none (op_name o))) ValueError ;;
  let '(mp, dp) := prefixes o in
  e <- opt_name_eq mp dp ;;
  _ <- guard (negb e) ValueError ;;
  create_named o nc mp dp.
Definition nctx_create (o : opts) (nc : Z) : res nctx :=
  match op_type o with
  | Hashed => create_hashed o nc
  | Segmented => create_segmented o nc
  | Prefixed => let '(mp, dp) := prefixes o in create_named o nc mp dp
  end.

(* ---------------- chunking ---------------- *)

(* SchemaImpl.py:37 *)
Definition MAX_CHUNK_ID : Z := 0xFFFFFF.

(* SchemaImpl.py:126-150 _calculate_data_payload_size *)
Definition payload_size (o : opts) (i : impl) : res Z :=
  n <- impl_name i (Some MAX_CHUNK_ID) ;;
  c <- create_data n (Some []) (op_dexp o) (if uses_name_id i then Some MAX_CHUNK_ID else None) ;;
  p <- create_content_object c ;;
  l <- packet_len p ;;
  _ <- guard (l <? op_max o) ValueError ;;
  Ok (op_max o - l).

(* SchemaImpl.py:152-161 _create_data_packet *)
Definition data_packet (o : opts) (n : option name) (b : bytes) (fcid : option Z) : res packet :=
  c <- create_data n (Some b) (op_dexp o) fcid ;;
  p <- create_content_object c ;;
  l <- packet_len p ;;
  _ <- guard (l <=? op_max o) ValueError ;;
  Ok p.

(* SchemaImpl.py:99-122, the loop of chunk_data.  [cur] is payload_value, [rest]
   the unread input, [id] is _next_chunk_id, [out] what was put.  data_input is
   a byte string and read(n) returns min(n, remaining) bytes; for any other
   stream see Stream.v.  packet_output.put cannot raise for the in-memory
   writer. *)
Fixpoint chunk_loop (fuel : nat) (o : opts) (i : impl) (psize : Z) (cur rest : bytes) (id : Z)
    (total : Z) (acc : list cmeta) : st (list packet) (list cmeta * Z * Z) :=
  match cur with
  | [] => sret (acc, total, id)
  | _ =>
    match fuel with
    | O => lift (Err OutOfFuel)
    | S f =>
      _ <~ lift (guard (id <=? MAX_CHUNK_ID) ValueError) ;;
      n <~ lift (impl_name i (Some id)) ;;
      let next := ztake psize rest in
      u <~ lift (uses_final_chunk_id i) ;;
      let fcid := if u && (zlen next =? 0) then Some id else None in
      p <~ lift (data_packet o n cur fcid) ;;
      h <~ lift (packet_hash (pr_sha P) p) ;;
      _ <~ smod (fun out => out ++ [p]) ;;
      chunk_loop f o i psize next (zskip psize rest) (id + 1)
        (total + zlen cur) (acc ++ [mkCM id (zlen cur) h])
    end
  end.
(* SchemaImpl.py:88-124 chunk_data: metadata, total bytes and the next chunk
   id; the state is the packet output *)
Definition chunk_data (o : opts) (i : impl) (id : Z) (data : bytes)
  : st (list packet) (list cmeta * Z * Z) :=
  ps <~ lift (payload_size o i) ;;
  chunk_loop (S (length data)) o i ps (ztake ps data) (zskip ps data) id 0 [].

(* ---------------- ManifestFactory ---------------- *)

(* What the source argument of build_packet may be (ManifestFactory.py:159-182;
   a single HashGroup is a list of one). *)
Inductive source := SrcPtrs (l : list hashv) | SrcGroups (l : list hgroup) | SrcNode (n : node).

(* The factory's state is the number of nonces drawn so far.  The statistics
   counters and the optional ManifestGraph are left out; see GraphBuild.v. *)

(* ManifestFactory.py:232-242 _build_from_node, _encrypt *)
Definition fac_from_node (o : opts) (include : bool) (n : node) : st nat manifest :=
  match op_enc o with
  | ENone =>
      let m := mkMan None (MNode n) None in
      _ <~ lift (man_wire m) ;; sret m
  | EAead p =>
      k <~ sget ;; _ <~ smod S ;;
      lift (r <- aead_encrypt P p (rnd k) n ;; manifest_of r)
  | EOaep i =>
      k <~ sget ;; _ <~ smod S ;;
      lift (r <- oaep_encrypt P i include (rnd k) n ;; manifest_of r)
  end.

(* "x if flag else None" *)
Definition keep {A} (flag : bool) (x : option A) : option A := if flag then x else None.

(* ManifestFactory.py:216-230 _build_node_from_hashgroups *)
Definition fac_from_groups (o : opts) (gs : list hgroup) (defs : option (list ncdef))
    (nsize : option Z) (include : bool) : st nat manifest :=
  let nd := if negb (is_none nsize) || negb (is_none defs)
            then Some (mkND nsize None None [] (match defs with None => [] | Some l => l end))
            else None in
  let n := mkNode nd gs None in
  _ <~ lift (node_tlv n) ;;
  fac_from_node o include n.

(* ManifestFactory.py:188-214 _build_from_pointers *)
Definition fac_from_ptrs (o : opts) (l : list hashv) (defs : option (list ncdef))
    (nsize gsize gleaf nc start : option Z) (include : bool) : st nat manifest :=
  let gd := if negb (is_none gsize) || negb (is_none gleaf) || negb (is_none nc)
               || negb (is_none start)
            then Some (mkGD gsize None gleaf None nc start) else None in
  let g := mkHG gd (Some l) in
  _ <~ lift (hg_tlv g) ;;
  fac_from_groups o [g] defs nsize include.

(* ManifestFactory.py:116-186 _build *)
Definition fac_build (o : opts) (src : source) (defs : option (list ncdef))
    (nsize gsize gleaf nc start : option Z) (include : bool) : st nat manifest :=
  let nsize := keep (op_nsize o) nsize in
  let gsize := keep (op_gsize o) gsize in
  let gleaf := keep (op_gleaf o) gleaf in
  m <~ match src with
       | SrcPtrs l => fac_from_ptrs o l defs nsize gsize gleaf nc start include
       | SrcGroups gs => fac_from_groups o gs defs nsize include
       | SrcNode n => fac_from_node o include n
       end ;;
  w <~ lift (man_wire m) ;;
  _ <~ lift (guard (zlen w <=? op_max o) ValueError) ;;
  sret m.

(* ManifestFactory.py:65-114 build_packet; [sign]: was a signer passed.  The
   signer used is the one in the options (101-104).  The Packet constructor
   also computes the hash (core/Packet.py:79-81). *)
Definition fac_packet (o : opts) (src : source) (defs : option (list ncdef))
    (nsize gsize gleaf nc start : option Z) (nm : option name) (expiry : option fl)
    (sign include : bool) : st nat packet :=
  m <~ fac_build o src defs nsize gsize gleaf nc start include ;;
  c <~ lift (man_content m nm expiry) ;;
  p <~ lift (if sign then
               match op_signer o with
               | None => Err AttributeError
               | Some s => sign_content P s now c
               end
             else create_content_object c) ;;
  _ <~ lift (packet_hash (pr_sha P) p) ;;
  sret p.

(* how TreeBuilder calls it (TreeBuilder.py:327-329) *)
Definition fac_node_packet (o : opts) (n : node) (nm : option name) : st nat packet :=
  fac_packet o (SrcNode n) None None None None None None nm (op_mexp o) false false.

(* ---------------- ManifestSizeCalculator ---------------- *)

(* the reference hash: flic/tree/ManifestSizeCalculator.py:57-58 *)
Definition ref_hash : hashv := mkHash T_SHA_256 (repeat 0 32).
(* ManifestSizeCalculator.py:26 *)
Definition MAX_MANIFEST_ID : Z := 0xFFFFFF.

(* f applied n times *)
Fixpoint times {A} (n : nat) (f : A -> res A) (a : A) : res A :=
  match n with O => Ok a | S n' => b <- f a ;; times n' f b end.

(* ManifestSizeCalculator.py:83-109 _build_manifest_packet *)
Definition ref_groups (x : nctx) (num : Z) : res (list hgroup) :=
  b <- times (Z.to_nat (num - 1)) (pr_on_direct (fun b => hb_prepend_direct b ref_hash None))
         (pr_new (nx_two x) (num - 1) 1) ;;
  b <- pr_on_indirect (fun b => hb_prepend_indirect b ref_hash None) b ;;
  pr_groups x b true true
    (if uses_name_id (nx_data x) then Some MAX_CHUNK_ID else None)
    (if uses_name_id (nx_man x) then Some MAX_MANIFEST_ID else None).
Definition ref_packet (o : opts) (x : nctx) (total num : Z) : st nat packet :=
  gs <~ lift (ref_groups x num) ;;
  fac_packet o (SrcGroups gs) None (Some total) None None None None None None false false.

(* int(slack / hash_value_len), ManifestSizeCalculator.py:65; slack > 0 *)
Definition int_div (a b : Z) : res Z :=
  let f := int_truediv a b in
  if fl_finite f then Ok (fl_trunc f) else Err OverflowError.

(* ManifestSizeCalculator.py:43-81 calculate_max_pointers *)
Definition max_pointers (o : opts) (x : nctx) (total : Z) : st nat Z :=
  t <~ lift (hashv_tlv ref_hash) ;;
  p <~ ref_packet o x total 1 ;;
  l <~ lift (packet_len p) ;;
  _ <~ lift (guard (l <? op_max o) ValueError) ;;
  q <~ lift (int_div (op_max o - l) (tlv_len t)) ;;
  let num := q + 1 in
  p <~ ref_packet o x total num ;;
  l <~ lift (packet_len p) ;;
  _ <~ lift (guard (l <=? op_max o) ValueError) ;;
  _ <~ lift (guard (2 <=? num) ValueError) ;;
  sret num.

(* flic/tree/TreeParameters.py:32-60 create_optimized_tree *)
Definition tree_params (o : opts) (x : nctx) (n total : Z) : st nat optres :=
  p <~ max_pointers o x total ;;
  _ <~ lift (guard (2 <=? p) ValueError) ;;
  let p := match op_degree o with None => p | Some d => Z.min p d end in
  lift (minimize_k_min_waste clog n p).

(* ---------------- TreeBuilder ---------------- *)

(* flic/tree/TreeBuilder.py:208-222 and the Segment object (143-191), which is
   passed by reference through all calls *)
Record bst := mkBst
  { b_head : Z; b_tail : Z; b_ids : list Z; b_mcnt : Z; b_leafs : Z; b_ints : Z;
    b_last : option Z; b_out : list packet; b_nonce : nat }.
Definition set_head (v : Z) (s : bst) : bst :=
  mkBst v (b_tail s) (b_ids s) (b_mcnt s) (b_leafs s) (b_ints s) (b_last s) (b_out s) (b_nonce s).
Definition set_tail (v : Z) (s : bst) : bst :=
  mkBst (b_head s) v (b_ids s) (b_mcnt s) (b_leafs s) (b_ints s) (b_last s) (b_out s) (b_nonce s).
Definition inc_leafs (s : bst) : bst :=
  mkBst (b_head s) (b_tail s) (b_ids s) (b_mcnt s) (b_leafs s + 1) (b_ints s) (b_last s) (b_out s) (b_nonce s).
Definition inc_ints (s : bst) : bst :=
  mkBst (b_head s) (b_tail s) (b_ids s) (b_mcnt s) (b_leafs s) (b_ints s + 1) (b_last s) (b_out s) (b_nonce s).
Definition took_id (id : Z) (ids : list Z) (s : bst) : bst :=
  mkBst (b_head s) (b_tail s) ids (b_mcnt s + 1) (b_leafs s) (b_ints s) (Some id) (b_out s) (b_nonce s).
Definition set_nonce (k : nat) (s : bst) : bst :=
  mkBst (b_head s) (b_tail s) (b_ids s) (b_mcnt s) (b_leafs s) (b_ints s) (b_last s) (b_out s) k.
(* TreeBuilder.py:287-292 _write_packet *)
Definition wrote (p : packet) (s : bst) : bst :=
  mkBst (b_head s) (b_tail s) (b_ids s) (b_mcnt s) (b_leafs s) (b_ints s) (b_last s) (b_out s ++ [p]) (b_nonce s).

(* TreeBuilder.py:158-164 Segment._assert_invariants *)
Definition seg_check : st bst unit :=
  s <~ sget ;;
  lift (guard ((0 <=? b_tail s) && (0 <=? b_head s) && (b_head s <=? b_tail s)) ValueError).
(* TreeBuilder.py:172-185 *)
Definition decrement_tail (c : Z) : st bst unit :=
  _ <~ lift (guard (0 <=? c) AssertionError) ;;
  s <~ sget ;; _ <~ smod (set_tail (b_tail s - c)) ;; seg_check.
Definition increment_head (c : Z) : st bst unit :=
  _ <~ lift (guard (0 <=? c) AssertionError) ;;
  s <~ sget ;; _ <~ smod (set_head (b_head s + c)) ;; seg_check.
Definition decrement_head (c : Z) : st bst unit :=
  _ <~ lift (guard (0 <=? c) AssertionError) ;;
  s <~ sget ;; _ <~ smod (set_head (b_head s - c)) ;; seg_check.
(* TreeBuilder.py:187-191 *)
Definition seg_empty (s : bst) : bool := b_head s =? b_tail s.
Definition seg_length (s : bst) : Z := b_tail s - b_head s.

(* the constructor arguments of TreeBuilder: file metadata, tree parameters
   (direct, indirect per node, tree height), name context, options *)
Record tenv := mkEnv
  { te_meta : list cmeta; te_d : Z; te_m : Z; te_h : Z; te_ctx : nctx; te_opt : opts }.
(* TreeParameters.py:66 *)
Definition te_p (v : tenv) : Z := te_m v + te_d v.

(* FileMetadata.py:54-60 *)
Definition meta_at (v : tenv) (i : Z) : res cmeta :=
  match nth_error (te_meta v) (Z.to_nat i) with Some c => Ok c | None => Err IndexError end.

(* TreeBuilder.py:266-285 _get_height, _get_next_manifest_name *)
Definition next_name (v : tenv) (level : Z) : st bst (option name) :=
  let h := te_h v - level in
  _ <~ lift (guard (0 <=? h) AssertionError) ;;
  s <~ sget ;;
  '(id, ids) <~ lift (next_id (b_ids s) h) ;;
  _ <~ lift (guard (0 <=? id) ValueError) ;;
  _ <~ smod (took_id id ids) ;;
  lift (impl_name (nx_man (te_ctx v)) (Some id)).

(* the manifest factory run on the builder's state *)
Definition run_fac {A} (m : st nat A) : st bst A :=
  fun s => let '(r, k) := m (b_nonce s) in (r, set_nonce k s).

(* TreeBuilder.py:320-331 _build_packet *)
Definition tb_packet (v : tenv) (gs : list hgroup) (dsize isize level : Z)
  : st bst (node * packet) :=
  let nd := if op_nsize (te_opt v) then Some (mkND (Some (dsize + isize)) None None [] [])
            else None in
  let n := mkNode nd gs None in
  _ <~ lift (node_tlv n) ;;
  nm <~ next_name v level ;;
  p <~ run_fac (fac_node_packet (te_opt v) n nm) ;;
  sret (n, p).

(* TreeBuilder.py:314-318 _get_start_segment_id *)
Definition start_segment_id (v : tenv) (head : Z) : res (option Z) :=
  if uses_name_id (nx_man (te_ctx v)) then c <- meta_at v head ;; Ok (Some (cm_num c))
  else Ok None.

(* TreeBuilder.py:333-352 _build_leaf_packet *)
Definition tb_leaf_packet (v : tenv) (head tail level : Z) : st bst (node * packet) :=
  _ <~ lift (guard (head <? tail) AssertionError) ;;
  b <~ lift (foldM (fun b i => c <- meta_at v i ;;
                               hb_append_direct b (cm_hash c) (Some (cm_bytes c)))
               (hb_new (tail - head) 0) (zrange head tail)) ;;
  sid <~ lift (start_segment_id v head) ;;
  g <~ lift (hb_group b (Some (im_nc (nx_data (te_ctx v)))) sid
               (op_gleaf (te_opt v)) (op_gsize (te_opt v))) ;;
  _ <~ smod inc_leafs ;;
  tb_packet v [g] (hb_dsize b) (hb_isize b) level.

(* TreeBuilder.py:374-387 _leaf_manifest *)
Definition tb_leaf (v : tenv) (level : Z) : st bst (node * packet) :=
  s <~ sget ;;
  let start := Z.max (b_head s) (b_tail s - te_p v) in
  np <~ tb_leaf_packet v start (b_tail s) level ;;
  _ <~ decrement_tail (b_tail s - start) ;;
  _ <~ smod (wrote (snd np)) ;;
  sret np.

(* TreeBuilder.py:444-448 _get_optional_subtree_size *)
Definition optional_size (v : tenv) (n : node) : res (option Z) :=
  if op_nsize (te_opt v) then
    match n_data n with
    | None => Err AttributeError
    | Some d => match nd_size d with None => Err AttributeError | Some z => Ok (Some z) end
    end
  else Ok None.

(* append_indirect / prepend_indirect of a child (TreeBuilder.py:411-414,
   424-425) *)
Definition add_child (v : tenv) (f : hgb -> hashv -> option Z -> res hgb)
    (np : node * packet) (b : pair) : res pair :=
  h <- packet_hash (pr_sha P) (snd np) ;;
  z <- optional_size v (fst np) ;;
  pr_on_indirect (fun b => f b h z) b.

(* TreeBuilder.py:422-425, the loop of _interior_add_indirect; [child] is
   self._bottom_up_preorder(segment, level - 1).  Every turn takes at least one
   chunk, so the length of the segment is enough fuel (C28). *)
Fixpoint indirect_loop (fuel : nat) (v : tenv) (child : st bst (node * packet)) (b : pair)
  : st bst pair :=
  s <~ sget ;;
  if negb (hb_indirect_full (pr_indirect b)) && negb (seg_empty s) then
    match fuel with
    | O => lift (Err OutOfFuel)
    | S f =>
      np <~ child ;;
      b <~ lift (add_child v hb_prepend_indirect np b) ;;
      indirect_loop f v child b
    end
  else sret b.

(* TreeBuilder.py:416-428 _interior_add_indirect *)
Definition add_indirect (v : tenv) (child : st bst (node * packet)) (b : pair) : st bst pair :=
  s <~ sget ;;
  let reserve := Z.min (te_d v) (seg_length s) in
  _ <~ increment_head reserve ;;
  s <~ sget ;;
  b <~ indirect_loop (Z.to_nat (seg_length s)) v child b ;;
  _ <~ decrement_head reserve ;;
  sret b.

(* TreeBuilder.py:430-442 _interior_add_direct *)
Fixpoint direct_loop (fuel : nat) (v : tenv) (b : pair) (least : option Z)
  : st bst (pair * option Z) :=
  s <~ sget ;;
  if negb (hb_direct_full (pr_direct b)) && negb (seg_empty s) then
    match fuel with
    | O => lift (Err OutOfFuel)
    | S f =>
      c <~ lift (meta_at v (b_tail s - 1)) ;;
      b <~ lift (pr_on_direct (fun b => hb_prepend_direct b (cm_hash c) (Some (cm_bytes c))) b) ;;
      _ <~ decrement_tail 1 ;;
      direct_loop f v b (Some (cm_num c))
    end
  else sret (b, least).
Definition add_direct (v : tenv) (b : pair) : st bst (pair * option Z) :=
  s <~ sget ;; direct_loop (Z.to_nat (seg_length s)) v b None.

(* TreeBuilder.py:354-372 _interior_packet; StartSegmentId(None) would raise
   TypeError *)
Definition tb_interior_packet (v : tenv) (b : pair) (dstart : option Z) (level : Z)
  : st bst (node * packet) :=
  s <~ sget ;;
  istart <~ lift (if negb (uses_name_id (nx_man (te_ctx v))) then Ok None
                  else match b_last s with None => Err TypeError | Some i => Ok (Some i) end) ;;
  let dstart := keep (uses_name_id (nx_data (te_ctx v))) dstart in
  gs <~ lift (pr_groups (te_ctx v) b (op_gleaf (te_opt v)) (op_gsize (te_opt v)) dstart istart) ;;
  tb_packet v gs (hb_dsize (pr_direct b)) (hb_isize (pr_indirect b)) level.

(* TreeBuilder.py:389-409 _interior_manifest *)
Definition tb_interior (v : tenv) (child : st bst (node * packet)) (level : Z)
    (right : option (node * packet)) : st bst (node * packet) :=
  let b := pr_new (nx_two (te_ctx v)) (te_d v) (te_m v) in
  b <~ lift (match right with
             | None => Ok b
             | Some np => add_child v hb_append_indirect np b
             end) ;;
  b <~ add_indirect v child b ;;
  '(b, dstart) <~ add_direct v b ;;
  np <~ tb_interior_packet v b dstart level ;;
  _ <~ smod (wrote (snd np)) ;;
  _ <~ smod inc_ints ;;
  sret np.

(* TreeBuilder.py:294-312 _bottom_up_preorder *)
Fixpoint bottom_up (v : tenv) (level : nat) (right : option (node * packet))
  : st bst (node * packet) :=
  match level with
  | O =>
      _ <~ lift (guard (is_none right) AssertionError) ;;
      tb_leaf v 0
  | S l =>
      s <~ sget ;;
      if is_none right && (seg_length s <=? te_p v) then tb_leaf v (Z.of_nat (S l))
      else tb_interior v (bottom_up v l None) (Z.of_nat (S l)) right
  end.

(* TreeBuilder.py:252-257, the loop of build *)
Fixpoint build_loop (fuel : nat) (v : tenv) (level : nat) (root : node * packet)
  : st bst (node * packet) :=
  s <~ sget ;;
  if seg_empty s then sret root
  else match fuel with
       | O => lift (Err OutOfFuel)
       | S f =>
         root <~ bottom_up v (S level) (Some root) ;;
         build_loop f v (S level) root
       end.

(* TreeBuilder.py:233-257 build, on the state made by __init__ (208-222) and
   line 243 *)
Definition tb_build (v : tenv) : st bst (node * packet) :=
  _ <~ seg_check ;;
  root <~ tb_leaf v 0 ;;
  s <~ sget ;;
  build_loop (Z.to_nat (seg_length s)) v 0 root.

(* TreeBuilder.py:194-222 __init__ and 243 *)
Definition tb_init (v : tenv) (out : list packet) (nonce : nat) : res bst :=
  ids <- id_factory (te_m v) (te_h v) ;;
  Ok (mkBst 0 (zlen (te_meta v)) ids 0 0 0 None out nonce).

(* ---------------- ManifestTree ---------------- *)

(* The process state a ManifestTree touches: packets put so far and nonces
   drawn. *)
Record mst := mkMst { ms_out : list packet; ms_nonce : nat }.
Definition on_out {A} (m : st (list packet) A) : st mst A :=
  fun s => let '(r, o) := m (ms_out s) in (r, mkMst o (ms_nonce s)).
Definition on_nonce {A} (m : st nat A) : st mst A :=
  fun s => let '(r, k) := m (ms_nonce s) in (r, mkMst (ms_out s) k).

(* flic/ManifestTree.py:132-140 _build_tree *)
Definition build_top (v : tenv) : st mst packet :=
  fun s =>
    match tb_init v (ms_out s) (ms_nonce s) with
    | Err e => (Err e, s)
    | Ok b0 =>
      let '(r, b) := tb_build v b0 in
      (np <- r ;; Ok (snd np), mkMst (b_out b) (b_nonce b))
    end.

(* ManifestTree.py:92-130 _create_root_manifest; an oversized root packet is
   only printed *)
Definition root_packet (o : opts) (x : nctx) (total : Z) (top : packet) : st nat packet :=
  h <~ lift (packet_hash (pr_sha P) top) ;;
  fac_packet o (SrcPtrs [h]) (Some (nctx_defs x)) (Some total) (Some total) None
    (Some (im_nc (nx_man x)))
    (if uses_name_id (nx_man x) then Some 0 else None)
    (op_name o) (op_rexp o) (negb (is_none (op_signer o))) true.

(* ManifestTree.py:85-90 build_root *)
Definition build_root (o : opts) (x : nctx) (total : Z) (top : packet) : st mst packet :=
  r <~ on_nonce (root_packet o x total top) ;;
  _ <~ on_out (smod (fun out => out ++ [r])) ;;
  sret r.

(* The environment of the tree builder (ManifestTree.py:132-139) *)
Definition env_of (o : opts) (x : nctx) (meta : list cmeta) (r : optres) : tenv :=
  mkEnv meta (or_d r) (or_m r) (or_height r) x o.

(* ManifestTree.py:33-90: the constructor on a byte stream, then build(); [nc]
   is SchemaImplFactory._next_nc_id.  A fresh name context has chunk counter
   0. *)
Definition manifest_tree (o : opts) (nc : Z) (data : bytes) : st mst packet :=
  x <~ lift (nctx_create o nc) ;;
  '(meta, total, _) <~ on_out (chunk_data o (nx_data x) 0 data) ;;
  r <~ on_nonce (tree_params o x (zlen meta) total) ;;
  top <~ build_top (env_of o x meta r) ;;
  build_root o x total top.
End Tree.

Arguments op_name {P} o.
Arguments op_type {P} o.
Arguments op_signer {P} o.
Arguments op_mprefix {P} o.
Arguments op_dprefix {P} o.
Arguments op_mlocs {P} o.
Arguments op_dlocs {P} o.
Arguments op_rexp {P} o.
Arguments op_mexp {P} o.
Arguments op_dexp {P} o.
Arguments op_enc {P} o.
Arguments op_nsize {P} o.
Arguments op_gsize {P} o.
Arguments op_gleaf {P} o.
Arguments op_degree {P} o.
Arguments op_max {P} o.
Arguments te_meta {P} t.
Arguments te_d {P} t.
Arguments te_m {P} t.
Arguments te_h {P} t.
Arguments te_ctx {P} t.
Arguments te_opt {P} t.
Arguments te_p {P} v.
