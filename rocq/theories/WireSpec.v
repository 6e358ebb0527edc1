(* The wire format of the manifest layer written down on its own: numeric type
   codes (the values of core/TlvNumbers.py and flic/tlvs/TlvNumbers.py), field
   order and [frame].  The records are those of the model; no function of the
   model is used except to read record fields. *)
From Coq Require Import ZArith List.
From Verif Require Import Spec Tlv Core Flic.
Import ListNotations.
Open Scope Z_scope.

Definition w_hash (h : hashv) : list Z := frame (h_alg h) (h_val h).
Definition w_hash_in (ty : Z) (h : hashv) : list Z := frame ty (w_hash h).
Definition w_name (n : name) : list Z :=
  frame 0x0000 (flat_map (fun c => frame (c_type c) (c_val c)) n).
Definition w_link (l : link) : list Z :=
  opt_bytes w_name (l_name l) ++ opt_bytes (w_hash_in 0x0002) (l_keyid l) ++
  opt_bytes (w_hash_in 0x0003) (l_digest l).

Definition w_pointers (l : list hashv) : list Z := frame 0x0007 (flat_map w_hash l).
Definition w_group_data (g : gdata) : list Z :=
  frame 0x000B
    (opt_bytes (uint_frame 0x0002) (gd_subtree_size g) ++
     opt_bytes (w_hash_in 0x0003) (gd_subtree_digest g) ++
     opt_bytes (uint_frame 0x0000) (gd_leaf_size g) ++
     opt_bytes (w_hash_in 0x0001) (gd_leaf_digest g) ++
     opt_bytes (uint_frame 0x0005) (gd_nc_id g) ++
     opt_bytes (uint_frame 0x0004) (gd_start g)).
Definition w_hash_group (h : hgroup) : list Z :=
  frame 0x0001 (opt_bytes w_group_data (hg_data h) ++ opt_bytes w_pointers (hg_ptrs h)).
Definition w_locators (ls : list link) : list Z :=
  frame 0x0006 (flat_map (fun l => frame 0x000D (w_link l)) ls).
Definition w_schema (s : schema) : list Z :=
  match s with
  | SHash ls _ => frame 0x0010 (opt_bytes w_locators ls)
  | SPrefix n ls _ => frame 0x0011 (opt_bytes w_name n ++ opt_bytes w_locators ls)
  | SSeg n x ls _ => frame 0x0012 (opt_bytes w_name n ++
      opt_bytes (fun k => frame 0x0002 (be_bytes 2 k)) x ++ opt_bytes w_locators ls)
  end.
Definition w_ncdef (d : ncdef) : list Z :=
  frame 0x0004 (opt_bytes (uint_frame 0x0005) (nd_id d) ++ opt_bytes w_schema (nd_schema d)).
Definition w_vendor (v : vendor) : list Z := frame 0x0FFF (be_bytes 3 (v_pen v) ++ v_payload v).
Definition w_node_data (d : ndata) : list Z :=
  frame 0x0000
    (opt_bytes (uint_frame 0x0002) (nd_size d) ++ opt_bytes (w_hash_in 0x0003) (nd_digest d) ++
     opt_bytes w_locators (nd_locators d) ++ flat_map w_ncdef (nd_ncdefs d) ++
     flat_map w_vendor (nd_vendors d)).
Definition w_node_body (n : node) : list Z :=
  opt_bytes w_node_data (n_data n) ++ flat_map w_hash_group (n_groups n).
(* padding to a total node length: a Pad TLV (type 0x0FFE) of zeros, if its own
   header still fits *)
Definition w_pad (target : Z) (body : list Z) : list Z :=
  let missing := target - 4 - Z.of_nat (length body) in
  if missing <? 4 then [] else frame 0x0FFE (repeat 0 (Z.to_nat (missing - 4))).
Definition w_node (n : node) : list Z :=
  let body := w_node_body n in
  frame 0x0001 (body ++ opt_bytes (fun p => w_pad p body) (n_pad n)).

Definition w_kdf (k : kdf) : list Z :=
  frame 0x0005 (uint_frame 0x0006 (k_alg k) ++ opt_bytes (frame 0x0007) (k_info k)).
Definition w_aead (a : aead) : list Z :=
  uint_frame 0x0000 (a_keynum a) ++ frame 0x0001 (a_nonce a) ++
  opt_bytes (uint_frame 0x0002) (a_mode a) ++ opt_bytes w_kdf (a_kdf a).
Definition w_wrapper (w : wrapper) : list Z :=
  w_hash_in 0x0009 (w_keyid w) ++ opt_bytes (fun l => frame 0x000E (w_link l)) (w_keylink w) ++
  opt_bytes (uint_frame 0x0003) (w_hashalg w) ++ opt_bytes (frame 0x0004) (w_key w).
Definition w_ctx (c : secctx) : list Z :=
  match c with
  | CAead a => frame 0x0000 (frame 0x0000 (w_aead a))
  | CRsa a w => frame 0x0000 (frame 0x0001 (w_aead a ++ opt_bytes w_wrapper w))
  end.
Definition w_manifest (m : manifest) : list Z :=
  opt_bytes w_ctx (m_ctx m) ++
  match m_node m with MNode n => w_node n | MEnc b => frame 0x0002 b end ++
  opt_bytes (frame 0x0003) (m_tag m).

(* Integers that fit the eight bytes an integer field can take. *)
Definition u64o (o : option Z) : Prop := forall n, o = Some n -> n < 2 ^ 64.
Definition gd_wf (g : gdata) : Prop :=
  u64o (gd_subtree_size g) /\ u64o (gd_leaf_size g) /\ u64o (gd_nc_id g) /\ u64o (gd_start g).
Definition hg_wf (h : hgroup) : Prop := forall g, hg_data h = Some g -> gd_wf g.
Definition ncdef_wf (d : ncdef) : Prop := u64o (nd_id d).
Definition nd_wf (d : ndata) : Prop := u64o (nd_size d) /\ Forall ncdef_wf (nd_ncdefs d).
Definition node_wf (n : node) : Prop :=
  (forall d, n_data n = Some d -> nd_wf d) /\ Forall hg_wf (n_groups n).
Definition kdf_wf (k : kdf) : Prop := k_alg k < 2 ^ 64.
Definition aead_wf (a : aead) : Prop :=
  a_keynum a < 2 ^ 64 /\ u64o (a_mode a) /\ (forall k, a_kdf a = Some k -> kdf_wf k).
Definition wrapper_wf (w : wrapper) : Prop := u64o (w_hashalg w).
Definition ctx_wf (c : secctx) : Prop :=
  match c with
  | CAead a => aead_wf a
  | CRsa a w => aead_wf a /\ forall x, w = Some x -> wrapper_wf x
  end.
Definition mnode_wf (n : mnode) : Prop := match n with MNode n => node_wf n | MEnc _ => True end.
Definition man_wf (m : manifest) : Prop :=
  (forall c, m_ctx m = Some c -> ctx_wf c) /\ mnode_wf (m_node m).

(* Content objects and packets (core/*.py).  Times are given in milliseconds. *)
Definition w_content (n : option name) (expiry_ms ptype : option Z) (payload : option (list Z))
    (fcid : option Z) : list Z :=
  frame 0x0002
    (opt_bytes w_name n ++ opt_bytes (fun m => frame 0x0006 (be_bytes 8 m)) expiry_ms ++
     opt_bytes (fun p => frame 0x0005 [p]) ptype ++ opt_bytes (frame 0x0001) payload ++
     opt_bytes (uint_frame 0x0007) fcid).
Definition w_alg_crc32c : list Z := frame 0x0003 (frame 0x0002 []).
Definition w_alg_rsa (keyid : hashv) (kl : option link) (sig_ms : Z) : list Z :=
  frame 0x0003 (frame 0x0004
    (w_hash_in 0x0009 keyid ++ 
     opt_bytes (fun l => frame 0x000E (w_link l)) kl ++ frame 0x000F (be_bytes 8 sig_ms))).
Definition w_val_payload (sig : list Z) : list Z := frame 0x0004 sig.
(* version 1, type 1 (content object), total length, three zero bytes, header length 8 *)
Definition w_packet (msg : list Z) : list Z :=
  let len := 8 + Z.of_nat (length msg) in [1; 1; len / 256; len mod 256; 0; 0; 0; 8] ++ msg.
