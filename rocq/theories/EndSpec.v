(* What is expected of a whole build: its output at every moment, and what a
   reader of it sees. *)
From Coq Require Import ZArith List Bool.
From Verif Require Import Py Float Tlv Core Flic Crypto Optimizer Tree TreeSpec Store Traversal.
Import ListNotations.
Open Scope Z_scope.

Section Spec.
Context {P : prims}.
Variable o : opts P.

(* m is a manifest of the node, in the clear or encrypted as the options say *)
Definition manifest_of_node (nd : node) (m : manifest) : Prop :=
  match op_enc o with
  | ENone => m = mkMan None (MNode nd) None
  | EAead a => exists nonce, aead_create_manifest P a nonce nd = Ok m
  | EOaep i => exists inc nonce, oaep_create_manifest P i inc nonce nd = Ok m
  end.
(* the packet is a manifest object for the node *)
Definition holds_node (p : packet) (nd : node) : Prop :=
  exists c m w, p_body p = BCO c /\ co_ptype c = Some PT_MANIFEST /\ co_payload c = Some w /\
    man_wire m = Ok w /\ manifest_of_node nd m.
Definition is_data_object (p : packet) : Prop :=
  exists c, p_body p = BCO c /\ co_ptype c = Some PT_DATA.

(* a packet with this hash is in the list *)
Definition stored (ps : list packet) (h : hashv) : Prop :=
  exists q, In q ps /\ packet_hash (pr_sha P) q = Ok h.

(* Packets written one after the other: each is a data object or a manifest
   object, and everything a manifest points to was written before it. *)
Definition no_dangling (ps : list packet) : Prop :=
  forall pre p post, ps = pre ++ p :: post ->
    is_data_object p \/
    exists nd, holds_node p nd /\ forall h, In h (node_ptrs nd) -> stored pre h.
End Spec.
Arguments stored P ps h : clear implicits.

(* q is what a reader gets for p: a content object with the same type and
   payload that passes validation *)
Definition copy {P} (ks : option (keystore P)) (q p : packet) : Prop :=
  exists c c', p_body p = BCO c /\ p_body q = BCO c' /\ co_ptype c' = co_ptype c /\
    co_payload c' = co_payload c /\ validate_packet P ks q = Ok tt.
(* the packet can be had by its name and hash *)
Definition available {P} (get : option name -> option hashv -> res packet) (ks : option (keystore P))
    (p : packet) : Prop :=
  forall h, packet_hash (pr_sha P) p = Ok h ->
    exists q, get (body_name p) (Some h) = Ok q /\ copy ks q p.

(* The receiver can decrypt what the options make a build encrypt: it has the
   key under the same number, or an RSA private key for the wrapped key in the
   root manifest. *)
Definition params_ok (p : aparams) : Prop :=
  0 <= ap_num p < 2 ^ 64 /\ forall k, ap_kdf p = Some k -> k_alg k < 2 ^ 64.
Definition has_key {P} (ks : keystore P) (p : aparams) : Prop :=
  exists q, get_aes_key P ks (ap_num p) = Ok q /\
    ap_key q = ap_key p /\ ap_num q = ap_num p /\ ap_salt q = ap_salt p.
Definition has_unwrapper {P} (ks : keystore P) (p : aparams) (wr : wrapper) : Prop :=
  (forall q, get_aes_key P ks (ap_num p) <> Ok q) /\ Forall (fun b => 0 <= b < 256) (ak_key (ap_key p)) /\
  exists key sk seed, rsa_pub P key = pr_pub P sk /\ wrapper_create P key seed p = Ok wr /\
    get_rsa P ks (QKeyId (w_keyid wr)) = Ok (RPriv sk).
Definition can_open {P} (o : opts P) (ks : option (keystore P)) : Prop :=
  match op_enc o with
  | ENone => True
  | EAead a => params_ok a /\ exists k, ks = Some k /\ has_key k a
  | EOaep i => params_ok (oi_params i) /\
      (forall wr, oi_wrapper i = Some wr -> exists key seed, wrapper_create P key seed (oi_params i) = Ok wr) /\
      exists k, ks = Some k /\
        (has_key k (oi_params i) \/ exists wr, oi_wrapper i = Some wr /\ has_unwrapper k (oi_params i) wr)
  end.

(* Names in options that survive being sent: their components hold bytes, as
   those of a name made from a URI or parsed from a packet do.  A hash schema
   does not send any for building names. *)
Definition plain_name (n : option name) : Prop :=
  forall m, n = Some m -> Forall (fun c => c_kind c = KBytes) m.
Definition plain_prefixes {P} (o : opts P) : Prop :=
  match op_type o with
  | Hashed => True
  | _ => plain_name (op_name o) /\ plain_name (op_mprefix o) /\ plain_name (op_dprefix o)
  end.
(* The locators of a hash schema are printed by the traversal. *)
Definition locators {P} (o : opts P) : list link :=
  mkLink (op_name o) None None ::
  match op_mlocs o with Some l => l | None => [] end ++ match op_dlocs o with Some l => l | None => [] end.
Definition printable_locators {P} (o : opts P) : Prop :=
  match op_type o with
  | Hashed => forall l n c, In l (locators o) -> l_name l = Some n -> In c n ->
      (c_type c = T_NAMESEGMENT -> utf8 (c_val c) = true) /\
      (c_type c = T_CHUNKID \/ c_type c = T_MANIFESTID -> Z.abs (array_to_number (c_val c)) < 10 ^ MAX_DIGITS)
  | _ => True
  end.

(* Two of the packets have the same SHA-256 only if the hashed bytes are the
   same. *)
Definition no_collisions (P : prims) (ps : list packet) : Prop :=
  forall p q h, In p ps -> In q ps -> packet_hash (pr_sha P) p = Ok h -> packet_hash (pr_sha P) q = Ok h ->
    packet_hash_input p = packet_hash_input q.
(* A reader of a store with the packets: it answers with one of those that
   have the hash, if that one has the name asked for or none. *)
Definition keeps (P : prims) (ps : list packet) (get : option name -> option hashv -> res packet) : Prop :=
  forall nm h, (exists p, In p ps /\ packet_hash (pr_sha P) p = Ok h) ->
    exists q, In q ps /\ packet_hash (pr_sha P) q = Ok h /\ get nm (Some h) = check_name nm q.

(* n chunks are needed for the data, and the optimizer picks r for them *)
Definition parameters (P : prims) clog rnd now (o : opts P) (nc : Z) (data : bytes) (k : nat) (n : Z) (r : optres) : Prop :=
  exists x ps k', nctx_create P o nc = Ok x /\ payload_size P o (nx_data x) = Ok ps /\
    n = (zlen data + ps - 1) / ps /\ tree_params P clog rnd now o x n (zlen data) k = (Ok r, k').
(* The receiver has what it needs for the build: the decryption key and, if
   the root manifest is signed, the signer's public key. *)
Definition equipped {P} (o : opts P) (ks : option (keystore P)) : Prop :=
  can_open o ks /\
  match op_signer o with
  | Some (SRsa sk) => exists store kid k, ks = Some store /\ rsa_keyid P (RPriv sk) = Ok kid /\
      get_rsa P store (QHash kid) = Ok k /\ rsa_pub P k = pr_pub P sk
  | _ => True
  end.
(* The traversal of what is in the reader, from the root manifest, ends well
   and has written the data; it visits n packets. *)
Definition reads_back {P} (get : option name -> option hashv -> res packet) (ks : option (keystore P))
    (nm : option name) (h : hashv) (depth : nat) (data : bytes) (n : Z) : Prop :=
  forall fuel, (depth <= fuel)%nat -> exists s, traverse P get true fuel nm (Some h) (tst_new P ks) = (Ok tt, s) /\
    concat (ts_out s) = data /\ ts_count s = n.
