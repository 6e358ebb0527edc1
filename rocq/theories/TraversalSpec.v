(* What a traversal of a packet store is expected to visit, independently of
   caches, recursion and state. *)
From Coq Require Import ZArith List Bool.
From Verif Require Import Py Float Tlv Core Flic Crypto Optimizer Tree Store Traversal.
Import ListNotations.
Open Scope Z_scope.

(* The packets reached from one packet, in visiting order.  [n] is the node of
   the manifest in the packet, if it is one that was opened; [stop] is the
   exception that ended the visit of this packet, if any. *)
Inductive ptree := PT (p : packet) (n : option node) (kids : list ptree) (stop : option exn).
Definition pt_packet (t : ptree) : packet := let 'PT p _ _ _ := t in p.
Definition pt_node (t : ptree) : option node := let 'PT _ n _ _ := t in n.
Definition pt_kids (t : ptree) : list ptree := let 'PT _ _ k _ := t in k.
Definition pt_stop (t : ptree) : option exn := let 'PT _ _ _ e := t in e.
(* preorder *)
Fixpoint visited (t : ptree) : list packet :=
  let 'PT p _ kids _ := t in p :: flat_map visited kids.
Fixpoint depth (t : ptree) : nat :=
  let 'PT _ _ kids _ := t in S (fold_right (fun k n => Nat.max (depth k) n) O kids).

(* the application data in a packet *)
Definition data_of (p : packet) : list bytes :=
  match p_body p with
  | BCO c => match co_ptype c, co_payload c with
             | Some t, Some b => if t =? PT_DATA then [b] else []
             | _, _ => []
             end
  | BInterest _ => []
  end.

(* The name constructor definitions in force: those of the manifest itself,
   then of its parent, and so on up to the root. *)
Definition scope := list (list ncdef).
(* the last definition of an id in one manifest *)
Fixpoint last_def (nc : Z) (ds : list ncdef) : option ncdef :=
  match ds with
  | [] => None
  | d :: ds' =>
    match last_def nc ds' with
    | Some x => Some x
    | None => match nd_id d with
              | Some n => if n =? nc then Some d else None
              | None => None
              end
    end
  end.
(* the definition in the nearest manifest on the path to the root *)
Fixpoint resolve (nc : Z) (D : scope) : option ncdef :=
  match D with
  | [] => None
  | ds :: D' => match last_def nc ds with Some d => Some d | None => resolve nc D' end
  end.
Definition node_defs (n : node) : list ncdef :=
  match n_data n with Some d => nd_ncdefs d | None => [] end.
(* a definition the traversal can use *)
Definition def_ok (d : ncdef) : Prop :=
  exists nc s, nd_id d = Some nc /\ nd_schema d = Some s /\ Z.abs nc < 10 ^ MAX_DIGITS /\ schema_repr s = Ok tt /\
    impl_make nc s = Ok (mkImpl nc s).

Section Walk.
Variable get : option name -> option hashv -> res packet.
Variable valid : packet -> res unit.
(* a data object must have a payload *)
Variable wr : bool.
(* the packet holds a manifest with this (possibly decrypted) node *)
Variable opens : packet -> node -> Prop.
(* the packet holds a manifest whose node cannot be decrypted *)
Variable sealed : packet -> exn -> Prop.

(* the packet a pointer leads to *)
Definition target (D : scope) (i : hiv) : res packet :=
  match resolve (hi_nc i) D with
  | None => Err KeyError
  | Some d =>
    match nd_schema d with
    | None => Err ValueError
    | Some s => n <- impl_name (mkImpl (hi_nc i) s) (hi_seg i) ;; get n (Some (hi_hash i))
    end
  end.

(* packets that are neither data nor a manifest *)
Inductive broken : packet -> exn -> Prop :=
| B_interest p n : p_body p = BInterest n -> broken p TypeError
| B_untyped p c : p_body p = BCO c -> co_ptype c = None -> broken p AttributeError
| B_type p c t : p_body p = BCO c -> co_ptype c = Some t -> t <> PT_MANIFEST -> t <> PT_DATA ->
    broken p ValueError
| B_empty p c : p_body p = BCO c -> co_ptype c = Some PT_DATA -> co_payload c = None ->
    wr = true -> broken p AttributeError
| B_manifest p c e : p_body p = BCO c -> co_ptype c = Some PT_MANIFEST ->
    man_from_content c = Err e -> broken p e.

(* [walk D t]: visiting the packet of t with the definitions D in force visits
   exactly the packets of t. *)
Inductive walk : scope -> ptree -> Prop :=
| W_broken D p e : broken p e -> walk D (PT p None [] (Some e))
| W_sealed D p e : sealed p e -> walk D (PT p None [] (Some e))
| W_data D p c : p_body p = BCO c -> co_ptype c = Some PT_DATA ->
    (wr = true -> co_payload c <> None) -> walk D (PT p None [] None)
| W_defs D p n l1 d l2 e : opens p n -> node_defs n = l1 ++ d :: l2 -> Forall def_ok l1 ->
    cache_def [] d = Err e -> walk D (PT p (Some n) [] (Some e))
| W_manifest D p n kids stop : opens p n -> Forall def_ok (node_defs n) ->
    walks (node_defs n :: D) (fst (node_iter (n_groups n))) (snd (node_iter (n_groups n))) kids stop ->
    walk D (PT p (Some n) kids stop)
(* the children, in pointer order; [trail] ends the iteration over the
   pointers *)
with walks : scope -> list hiv -> option exn -> list ptree -> option exn -> Prop :=
| WS_end D trail : walks D [] trail [] trail
| WS_missing D i items trail e : target D i = Err e -> walks D (i :: items) trail [] (Some e)
| WS_invalid D i items trail p e : target D i = Ok p -> valid p = Err e ->
    walks D (i :: items) trail [] (Some e)
| WS_stop D i items trail t e : target D i = Ok (pt_packet t) -> valid (pt_packet t) = Ok tt ->
    walk D t -> pt_stop t = Some e -> walks D (i :: items) trail [t] (Some e)
| WS_next D i items trail t kids stop : target D i = Ok (pt_packet t) ->
    valid (pt_packet t) = Ok tt -> walk D t -> pt_stop t = None ->
    walks D items trail kids stop -> walks D (i :: items) trail (t :: kids) stop.
End Walk.

Section Opens.
Variable P : prims.
(* The packet holds a manifest in the clear with node n, or one whose
   ciphertext some key opens to n. *)
Definition readable (p : packet) (n : node) : Prop :=
  exists c m, p_body p = BCO c /\ co_ptype c = Some PT_MANIFEST /\ man_from_content c = Ok m /\
    (m_node m = MNode n \/
     exists ap ctx ct tag, m_ctx m = Some ctx /\ m_node m = MEnc ct /\ m_tag m = Some tag /\
       decrypt_node P ap ctx ct tag = Ok n).
(* the packet holds an encrypted manifest *)
Definition encrypted (p : packet) : Prop :=
  exists c m ct, p_body p = BCO c /\ co_ptype c = Some PT_MANIFEST /\ man_from_content c = Ok m /\
    m_node m = MEnc ct.
End Opens.

(* [below t D k]: k hangs somewhere below t, and D are the definitions of the
   manifests above k, nearest first. *)
Inductive below (t : ptree) : scope -> ptree -> Prop :=
| B_here : below t [] t
| B_down D p n kids stop k : below t D (PT p (Some n) kids stop) -> In k kids ->
    below t (node_defs n :: D) k.
