(* Encoding the manifests of a tree does not fail, used for C52. *)
From Coq Require Import ZArith List Bool Lia ZifyBool.
From Verif Require Import Py Tlv Float Core TlvProofs FloatProofs CoreProofs Flic FlicProofs Spec Crypto CryptoProofs
  Optimizer OptimizerProofs Tree TreeSpec TreeProofs TreeFacts PropsTree ChunkProofs SizeProofs PropsChunk SizeNode.
Import ListNotations.
Open Scope Z_scope.
Opaque tlv_make tlv_wire tlv_deserialize.

(* ---------------- TLVs that can be encoded ---------------- *)

Definition nat_opt (o : option Z) : Prop := match o with None => True | Some n => 0 <= n end.
Definition good_hash (h : hashv) : Prop := h_alg h = T_SHA_256 /\ sha_len h /\ bytes_ok (h_val h).
Definition good_group (x : gdata * list hashv) : Prop :=
  plain x /\ Forall good_hash (snd x) /\ nat_opt (gd_subtree_size (fst x)) /\ nat_opt (gd_leaf_size (fst x)) /\
  nat_opt (gd_nc_id (fst x)) /\ nat_opt (gd_start (fst x)).

Lemma int_opt_intro ty o : 0 <= ty < 65536 -> nat_opt o -> exists l, opt_tlvs (int_tlv ty) o l.
Proof.
  intros Ht. destruct o as [n|]; cbn [nat_opt opt_tlvs]; [|eauto]. intros Hn.
  destruct (int_tlv_intro ty n Ht Hn) as (t & E). eauto.
Qed.
Lemma int_opts_ok ty o l : opt_tlvs (int_tlv ty) o l -> Forall tlv_ok l.
Proof. apply opt_tlvs_ok. intros a t H. now apply int_tlv_ok in H. Qed.
Lemma olen_le o : olen o <= 12.
Proof. destruct o as [n|]; cbn [olen]; [|lia]. unfold int_len. repeat match goal with |- context [if ?c then _ else _] => destruct c end; lia. Qed.

Lemma gd_tlv_intro g : gd_subtree_digest g = None -> gd_leaf_digest g = None ->
  nat_opt (gd_subtree_size g) -> nat_opt (gd_leaf_size g) -> nat_opt (gd_nc_id g) -> nat_opt (gd_start g) ->
  exists t, gd_tlv g = Ok t.
Proof.
  intros D1 D2 N1 N2 N3 N4.
  destruct (int_opt_intro T_SUBTREE_SIZE _ ltac:(unfold T_SUBTREE_SIZE; lia) N1) as (l1 & O1).
  destruct (int_opt_intro T_LEAF_SIZE _ ltac:(unfold T_LEAF_SIZE; lia) N2) as (l3 & O3).
  destruct (int_opt_intro T_NCID _ ltac:(unfold T_NCID; lia) N3) as (l5 & O5).
  destruct (int_opt_intro T_START_SEGMENT_ID _ ltac:(unfold T_START_SEGMENT_ID; lia) N4) as (l6 & O6).
  destruct (wire_opt_intro _ _ _ O1) as (w1 & E1 & F1). destruct (wire_opt_intro _ _ _ O3) as (w3 & E3 & F3).
  destruct (wire_opt_intro _ _ _ O5) as (w5 & E5 & F5). destruct (wire_opt_intro _ _ _ O6) as (w6 & E6 & F6).
  unfold gd_tlv. rewrite D1, D2, E1, E3, E5, E6. cbn [bind wire_opt].
  assert (FN : forall r, flatten (None :: r) = flatten r) by reflexivity.
  rewrite F1, FN, F3, FN, F5, F6. change (flatten []) with (@nil Z). rewrite app_nil_r, <- !wires_app. eexists. apply tlv_make_intro.
  split; [cbn [t_type]; unfold T_GROUP_DATA; lia|]. split.
  - unfold tlv_length. cbn [t_val]. fold (wlen (l1 ++ l3 ++ l5 ++ l6)). rewrite !wlen_app.
    rewrite (olen_tlvs _ _ _ O1), (olen_tlvs _ _ _ O3), (olen_tlvs _ _ _ O5), (olen_tlvs _ _ _ O6).
    pose proof (olen_le (gd_subtree_size g)). pose proof (olen_le (gd_leaf_size g)).
    pose proof (olen_le (gd_nc_id g)). pose proof (olen_le (gd_start g)). lia.
  - cbn [t_val]. apply bytes_ok_wires. rewrite !Forall_app. repeat split; eauto using int_opts_ok.
Qed.

Lemma hashes_intro hs : Forall good_hash hs -> exists l, mapM hashv_tlv hs = Ok l /\ Forall tlv_ok l.
Proof.
  induction 1 as [|h hs (A & L & B) _ (l & E & F)]; [exists []; split; [reflexivity|constructor]|].
  assert (tlv_ok (mkTlv (h_alg h) (h_val h))) as K.
  { split; [rewrite A; cbn [t_type]; unfold T_SHA_256; lia|]. split; [unfold tlv_length; cbn [t_val]; unfold sha_len in L; lia|exact B]. }
  exists (mkTlv (h_alg h) (h_val h) :: l). cbn [mapM]. unfold hashv_tlv at 1. rewrite (tlv_make_intro _ _ K). cbn [bind].
  rewrite E. cbn [bind]. split; [reflexivity|]. now constructor.
Qed.
Lemma good_sha hs : Forall good_hash hs -> Forall sha_len hs.
Proof. apply Forall_impl. intros h H. apply H. Qed.

Lemma ptrs_tlv_intro hs : Forall good_hash hs -> 36 * zlen hs < 65536 -> exists t, ptrs_tlv hs = Ok t.
Proof.
  intros F L. destruct (hashes_intro hs F) as (l & E & Fl). unfold ptrs_tlv. rewrite E. cbn [bind].
  eexists. apply tlv_make_intro. split; [cbn [t_type]; unfold T_PTRS; lia|]. split.
  - unfold tlv_length. cbn [t_val]. change (concat_wires l) with (wires l). fold (wlen l).
    rewrite (hashes_len _ _ (good_sha _ F) E). exact L.
  - cbn [t_val]. now apply bytes_ok_wires.
Qed.

Lemma hg_tlv_intro x : good_group x -> hg_len (fst x) (zlen (snd x)) < 65540 ->
  exists t, hg_tlv (mkHG (Some (fst x)) (Some (snd x))) = Ok t.
Proof.
  intros ((D1 & D2 & S) & F & N1 & N2 & N3 & N4) L. unfold hg_len, gd_len in L.
  pose proof (olen_nonneg (gd_subtree_size (fst x))). pose proof (olen_nonneg (gd_leaf_size (fst x))).
  pose proof (olen_nonneg (gd_nc_id (fst x))). pose proof (olen_nonneg (gd_start (fst x))).
  destruct (gd_tlv_intro _ D1 D2 N1 N2 N3 N4) as (t1 & E1).
  destruct (ptrs_tlv_intro _ F) as (t2 & E2); [lia|].
  unfold hg_tlv. cbn [hg_data hg_ptrs wire_opt]. rewrite E1, E2. cbn [bind]. eexists. apply tlv_make_intro.
  split; [cbn [t_type]; unfold T_HASH_GROUP; lia|]. cbn [flatten]. rewrite app_nil_r. 
  pose proof (gd_tlv_len _ _ D1 D2 E1) as L1. pose proof E2 as E2'.
  apply gd_tlv_ok in E1 as (K1 & _). apply ptrs_tlv_ok in E2 as (K2 & _ & l & El & Hv2). split.
  - unfold tlv_length. cbn [t_val]. rewrite zlen_app, !zlen_tlv_wire, L1. unfold tlv_len, tlv_length. rewrite Hv2. fold (wlen l).
    rewrite (hashes_len _ _ S El). unfold gd_len. lia.
  - cbn [t_val]. rewrite bytes_ok_app. split; now apply tlv_wire_ok.
Qed.

Lemma nd_intro s : nat_opt s -> exists l, opt_tlvs nd_tlv (option_map (fun b => mkND (Some b) None None [] []) s) l.
Proof.
  destruct s as [b|]; cbn [option_map opt_tlvs nat_opt]; [|eauto]. intros Hb.
  destruct (int_tlv_intro T_SUBTREE_SIZE b ltac:(unfold T_SUBTREE_SIZE; lia) Hb) as (t & E).
  unfold nd_tlv. cbn [nd_size nd_digest nd_locators nd_ncdefs nd_vendors wire_opt mapM bind]. rewrite E. cbn [bind flatten].
  eexists. eexists. split; [|reflexivity]. apply tlv_make_intro. split; [cbn [t_type]; unfold T_NODE_DATA; lia|].
  cbn [t_val]. pose proof (int_tlv_len _ _ _ E) as L. apply int_tlv_ok in E as (K & _).
  change (concat_wires []) with (@nil Z). rewrite !app_nil_r. split.
  - unfold tlv_length. cbn [t_val]. rewrite zlen_tlv_wire, L. pose proof (olen_le (Some b)) as X. cbn [olen] in X. lia.
  - now apply tlv_wire_ok.
Qed.

Lemma groups_intro gs : Forall good_group gs -> Forall (fun x => hg_len (fst x) (zlen (snd x)) < 65540) gs ->
  exists l, mapM hg_tlv (map (fun x => mkHG (Some (fst x)) (Some (snd x))) gs) = Ok l /\ Forall tlv_ok l.
Proof.
  induction 1 as [|x gs G _ IH]; intros F; [exists []; split; [reflexivity|constructor]|].
  inversion F as [|? ? L F']; subst. destruct (IH F') as (l & E & K). destruct (hg_tlv_intro x G L) as (t & Et).
  exists (t :: l). cbn [map mapM]. rewrite Et. cbn [bind]. rewrite E. cbn [bind]. split; [reflexivity|].
  constructor; [|exact K]. now apply hg_tlv_ok in Et.
Qed.

Lemma hg_len_pos g k : 0 <= k -> 0 <= hg_len g k.
Proof.
  intros. unfold hg_len, gd_len. pose proof (olen_nonneg (gd_subtree_size g)). pose proof (olen_nonneg (gd_leaf_size g)).
  pose proof (olen_nonneg (gd_nc_id g)). pose proof (olen_nonneg (gd_start g)). lia.
Qed.
Lemma zsum_each {A} (f : A -> Z) l x : (forall y, 0 <= f y) -> In x l -> f x <= zsum (map f l).
Proof.
  intros Hf. induction l as [|y l IH]; [intros []|]. assert (0 <= zsum (map f l)).
  { clear IH. induction l as [|z l IH]; [reflexivity|]. cbn [map]. rewrite zsum_cons. specialize (Hf z). lia. }
  cbn [map]. rewrite zsum_cons. intros [->|H']; [lia|]. specialize (IH H'). specialize (Hf y). lia.
Qed.

Lemma gnode_intro s gs : nat_opt s -> gs <> [] -> Forall good_group gs -> node_len s gs < 65540 ->
  exists t, node_tlv (gnode s gs) = Ok t.
Proof.
  intros Hs Hn F L. unfold node_len in L.
  assert (P0 : forall x : gdata * list hashv, 0 <= hg_len (fst x) (zlen (snd x)))
    by (intros; apply hg_len_pos, zlen_nonneg).
  assert (0 <= nd_len s) by (destruct s as [b|]; cbn [nd_len]; [pose proof (int_len_pos b)|]; lia).
  assert (Forall (fun x => hg_len (fst x) (zlen (snd x)) < 65540) gs) as F2.
  { apply Forall_forall. intros x Hx. pose proof (zsum_each (fun x => hg_len (fst x) (zlen (snd x))) gs x P0 Hx). cbv beta in *. lia. }
  destruct (groups_intro gs F F2) as (l2 & E2 & K2). destruct (nd_intro s Hs) as (l1 & O1).
  destruct (wire_opt_intro _ _ _ O1) as (w1 & E1 & F1).
  assert (Forall plain gs) as Fp by (eapply Forall_impl; [|exact F]; intros y Hy; apply Hy).
  unfold node_tlv, node_value, gnode. cbn [n_data n_groups n_pad].
  replace (zlen (map _ gs) =? 0) with false.
  2:{ destruct gs; [contradiction|]. cbn [map]. rewrite zlen_cons. pose proof (zlen_nonneg (map (fun x : gdata * list hashv => mkHG (Some (fst x)) (Some (snd x))) gs)). lia. }
  cbn [negb guard bind]. rewrite E1, E2. cbn [bind]. rewrite F1. cbn [flatten]. rewrite app_nil_r.
  change (concat_wires l2) with (wires l2). rewrite <- wires_app.
  eexists. apply tlv_make_intro. split; [cbn [t_type]; unfold T_NODE; lia|]. cbn [t_val]. split.
  - unfold tlv_length. cbn [t_val]. fold (wlen (l1 ++ l2)). rewrite wlen_app, (nd_tlvs_len _ _ O1), (groups_len _ _ Fp E2). lia.
  - apply bytes_ok_wires, Forall_app. split; [|exact K2]. eapply opt_tlvs_ok; [|exact O1]. intros a t H'. now apply nd_tlv_ok in H'.
Qed.

(* ---------------- encryption ---------------- *)

(* Sealing works for every plaintext of less than 2^16 bytes and every nonce of
   the same length once it works for one; it returns bytes. *)
Definition seal_total (P : prims) : Prop := forall a k iv pt aad c iv' pt' aad',
  pr_seal P a k iv pt aad = Ok c -> zlen iv' = zlen iv -> all_bytes iv' -> all_bytes pt' -> zlen pt' < 2 ^ 16 ->
  exists c', pr_seal P a k iv' pt' aad' = Ok c' /\ all_bytes c'.

Lemma all_bytes_ok l : all_bytes l <-> bytes_ok l.
Proof.
  unfold all_bytes, bytes_ok. rewrite Forall_forall. split; intros H y Hy; specialize (H y Hy); unfold is_byte in *; lia.
Qed.

Section Enc.
Context (P : prims).
Variable rnd : nat -> bytes.
Hypothesis HP : seal_adds_tag P.
Hypothesis HT : seal_total P.
Hypothesis HR : same_nonce_len rnd.
Hypothesis HB : forall k, all_bytes (rnd k).

Lemma octet_intro ty b : 0 <= ty < 65536 -> bytes_ok b -> zlen b < 65536 -> exists t, octet_tlv ty b = Ok t.
Proof. intros Ht Hb Hl. eexists. apply tlv_make_intro. split; [exact Ht|]. split; [exact Hl|exact Hb]. Qed.

Lemma aead_data_again p k0 k a0 : create_aead_data p (rnd k0) = Ok a0 ->
  exists m w0 w, a0 = mkAead (ap_num p) (rnd k0) (Some m) (ap_kdf p) /\ mode_of_key (ap_key p) = Ok m /\
    aead_wire a0 = Ok w0 /\ aead_wire (mkAead (ap_num p) (rnd k) (Some m) (ap_kdf p)) = Ok w /\ zlen w = zlen w0 /\ bytes_ok w.
Proof.
  unfold create_aead_data. intros H. apply bind_ok in H as (m & Em & H). apply bind_ok in H as (w0 & Ew & H).
  apply Ok_inj in H. subst a0.
  pose proof Ew as Ew0. unfold aead_wire in Ew. cbn [a_keynum a_nonce a_mode a_kdf] in Ew.
  apply bind_ok in Ew as (t1 & E1 & Ew). apply bind_ok in Ew as (t2 & E2 & Ew). apply bind_ok in Ew as (w3 & E3 & Ew).
  apply bind_ok in Ew as (w4 & E4 & Ew).
  pose proof E2 as E2'. apply octet_tlv_ok in E2' as ((T2 & L2 & _) & Ty & V2). unfold tlv_length in L2. rewrite V2 in L2. rewrite Ty in T2.
  destruct (octet_intro T_NONCE (rnd k) T2) as (t2' & E2''); [apply all_bytes_ok, HB|rewrite (HR k k0); exact L2|].
  assert (aead_wire (mkAead (ap_num p) (rnd k) (Some m) (ap_kdf p)) = Ok (flatten [Some (tlv_wire t1); Some (tlv_wire t2'); w3; w4])) as Ew'.
  { unfold aead_wire. cbn [a_keynum a_nonce a_mode a_kdf]. rewrite E1. cbn [bind]. rewrite E2''. cbn [bind]. rewrite E3. cbn [bind].
    rewrite E4. reflexivity. }
  exists m, w0, (flatten [Some (tlv_wire t1); Some (tlv_wire t2'); w3; w4]).
  split; [reflexivity|]. split; [exact Em|]. split; [exact Ew0|]. split; [exact Ew'|]. split.
  - refine (aead_wire_len _ _ _ _ _ _ _ _ Ew' Ew0); try reflexivity. apply HR.
  - apply int_tlv_ok in E1 as (K1 & _). apply octet_tlv_ok in E2'' as (K2 & _).
    cbn [wire_opt] in E3. apply bind_ok in E3 as (t3 & E3 & X). apply Ok_inj in X. subst w3. apply int_tlv_ok in E3 as (K3 & _).
    cbn [flatten]. rewrite !bytes_ok_app. split; [now apply tlv_wire_ok|]. split; [now apply tlv_wire_ok|].
    split; [now apply tlv_wire_ok|]. destruct (ap_kdf p); cbn [wire_opt] in E4.
    + apply bind_ok in E4 as (t4 & E4 & X). apply Ok_inj in X. subst w4. rewrite app_nil_r.
      apply kdf_tlv_ok in E4 as (K4 & _). now apply tlv_wire_ok.
    + apply Ok_inj in E4. subst w4. constructor.
Qed.

Lemma zsplit_bytes (c : bytes) n : bytes_ok c -> bytes_ok (ztake n c) /\ bytes_ok (zskip n c).
Proof. intros H. unfold bytes_ok, ztake, zskip in *. rewrite <- (firstn_skipn (Z.to_nat n) c) in H. now apply Forall_app in H. Qed.

(* encrypting another node under another nonce *)
Lemma encrypt_again p c0 c nd0 nd k0 k t r0 : a_nonce (ctx_aead c0) = rnd k0 -> a_nonce (ctx_aead c) = rnd k ->
  encrypt_with_ctx P p nd0 c0 = Ok r0 -> node_tlv nd = Ok t -> (exists tc, ctx_tlv c = Ok tc) -> tlv_len t < 65536 ->
  exists ct tag, encrypt_with_ctx P p nd c = Ok (ct, tag) /\ bytes_ok ct /\ bytes_ok tag /\ zlen ct < 65536 /\ zlen tag = 16.
Proof.
  intros N0 N H Et (tc & Ec) L. unfold encrypt_with_ctx in H. rewrite N0 in H.
  apply bind_ok in H as (iv0 & Ei & H). apply bind_ok in H as (t0 & _ & H). apply bind_ok in H as (tc0 & _ & H).
  apply bind_ok in H as ([ct0 tag0] & Es & _). unfold aead_seal in Es. apply bind_ok in Es as (out & Es & _).
  assert (exists iv, iv_of p (rnd k) = Ok iv /\ zlen iv = zlen iv0 /\ all_bytes iv) as (iv & Eiv & Liv & Biv).
  { unfold iv_of in *. destruct (ap_salt p) as [z|].
    - apply bind_ok in Ei as (b & Eb & Ei). apply Ok_inj in Ei. subst iv0. exists (b ++ rnd k). rewrite Eb. split; [reflexivity|].
      split; [rewrite !zlen_app, (HR k k0); reflexivity|]. unfold to_bytes4 in Eb.
      destruct ((0 <=? z) && (z <? 2 ^ 32)) eqn:Z; [|discriminate]. apply Ok_inj in Eb.
      assert (0 <= z / 2 ^ 24 < 256) as Z4 by (split; [apply Z.div_pos; lia|apply Z.div_lt_upper_bound; lia]).
      subst b. intros y Hy. apply in_app_iff in Hy as [Hy|Hy]; [|now apply (HB k)]. cbn [In] in Hy.
      destruct Hy as [<-|Hy]; [exact Z4|]. repeat (destruct Hy as [<-|Hy]; [apply Z.mod_pos_bound; lia|]). destruct Hy.
    - apply Ok_inj in Ei. subst iv0. exists (rnd k). split; [reflexivity|]. split; [apply HR|apply HB]. }
  pose proof Et as Et0. apply node_tlv_ok in Et0 as ((_ & _ & Bt) & _).
  unfold tlv_len, tlv_length in L.
  destruct (HT _ _ _ _ _ _ iv (t_val t) (tlv_wire tc) Es Liv Biv) as (c' & Es' & Bc); [now apply all_bytes_ok|change (2^16) with 65536; lia|].
  pose proof (HP _ _ _ _ _ _ Es') as Lc. apply all_bytes_ok in Bc. pose proof (zlen_nonneg (t_val t)).
  destruct (zsplit_bytes c' (zlen c' - 16) Bc) as (B1 & B2).
  assert (zlen (ztake (zlen c' - 16) c') = zlen (t_val t)) as L1 by (rewrite zlen_ztake by lia; lia).
  replace (zlen c' - 16) with (zlen (t_val t)) in * by lia.
  assert (zlen (zskip (zlen (t_val t)) c') = 16) as L2 by (rewrite zlen_zskip by lia; lia).
  exists (ztake (zlen (t_val t)) c'), (zskip (zlen (t_val t)) c').
  split; [|repeat split; try assumption; lia].
  unfold encrypt_with_ctx. rewrite N, Eiv. cbn [bind]. rewrite Et. cbn [bind]. rewrite Ec. cbn [bind]. unfold aead_seal.
  rewrite Es'. cbn [bind]. replace (zlen c' - 16) with (zlen (t_val t)) by lia. rewrite (array_B_intro _ B1), L1. cbn [bind].
  rewrite (array_B_intro _ B2). cbn [bind].
  destruct (octet_intro T_ENCRYPTED_NODE _ ltac:(unfold T_ENCRYPTED_NODE; lia) B1 ltac:(lia)) as (u1 & U1).
  destruct (octet_intro T_AUTH_TAG _ ltac:(unfold T_AUTH_TAG; lia) B2 ltac:(lia)) as (u2 & U2).
  rewrite U1, U2. reflexivity.
Qed.

Lemma manifest_of_intro c ct tag : (exists tc, ctx_tlv c = Ok tc) -> bytes_ok ct -> bytes_ok tag ->
  zlen ct < 65536 -> zlen tag = 16 -> exists w, manifest_of (c, ct, tag) = Ok (mkMan (Some c) (MEnc ct) (Some tag)) /\
    man_wire (mkMan (Some c) (MEnc ct) (Some tag)) = Ok w /\ bytes_ok w.
Proof.
  intros (tc & Ec) B1 B2 L1 L2.
  destruct (octet_intro T_ENCRYPTED_NODE _ ltac:(unfold T_ENCRYPTED_NODE; lia) B1 ltac:(lia)) as (u1 & U1).
  destruct (octet_intro T_AUTH_TAG _ ltac:(unfold T_AUTH_TAG; lia) B2 ltac:(lia)) as (u2 & U2).
  assert (man_wire (mkMan (Some c) (MEnc ct) (Some tag)) = Ok (flatten [Some (tlv_wire tc); Some (tlv_wire u1); Some (tlv_wire u2)])) as Ew.
  { unfold man_wire. cbn [m_ctx m_node m_tag wire_opt mnode_tlv]. rewrite Ec. cbn [bind]. rewrite U1. cbn [bind]. rewrite U2. reflexivity. }
  eexists. unfold manifest_of. rewrite Ew. cbn [bind]. split; [reflexivity|]. split; [reflexivity|]. cbn [flatten].
  apply octet_tlv_ok in U1 as (K1 & _), U2 as (K2 & _). apply ctx_tlv_ok in Ec as (K & _).
  rewrite !bytes_ok_app. repeat split; try (now apply tlv_wire_ok). constructor.
Qed.

(* once the encryptor of the options has encrypted one node, it encrypts all
   nodes *)
Lemma manifest_again (v : tenv P) nd0 k0 m0 nd k t : manifest_for P rnd v nd0 k0 m0 -> node_tlv nd = Ok t -> tlv_len t < 65536 ->
  exists m w, manifest_for P rnd v nd k m /\ man_wire m = Ok w /\ bytes_ok w.
Proof.
  unfold manifest_for. intros M Et L. destruct (op_enc (te_opt v)) as [|a|i].
  - exists (mkMan None (MNode nd) None). eexists. split; [reflexivity|]. unfold man_wire.
    cbn [m_ctx m_node m_tag wire_opt mnode_tlv bind]. rewrite Et. cbn [bind flatten]. split; [reflexivity|].
    rewrite app_nil_r. apply node_tlv_ok in Et as (K & _). now apply tlv_wire_ok.
  - unfold aead_create_manifest, aead_encrypt in M.
    apply bind_ok in M as (r & E & _). apply bind_ok in E as (a0 & A & E). apply bind_ok in E as (tc0 & C0 & E).
    apply bind_ok in E as ([ct0 tag0] & E & _).
    destruct (aead_data_again a k0 k a0 A) as (md & w0 & w & -> & Em & W0 & W & Lw & Bw).
    set (c := CAead (mkAead (ap_num a) (rnd k) (Some md) (ap_kdf a))).
    assert (exists tc, ctx_tlv c = Ok tc) as (tc & C).
    { cbn [ctx_tlv] in C0. rewrite W0 in C0. cbn [bind] in C0. apply bind_ok in C0 as (i0 & I0 & C0).
      apply tlv_make_ok in I0 as ((T1 & L1 & _) & ->). apply tlv_make_ok in C0 as ((T2 & L2 & _) & ->).
      unfold tlv_length in L1, L2. cbn [t_type t_val] in *. rewrite zlen_tlv_wire in L2. unfold tlv_len, tlv_length in L2. cbn [t_val] in L2.
      assert (tlv_ok (mkTlv T_AEAD_CTX w)) as K1 by (split; [exact T1|]; split; [unfold tlv_length; cbn [t_val]; lia|exact Bw]).
      cbn [c ctx_tlv]. rewrite W. cbn [bind]. rewrite (tlv_make_intro _ _ K1). cbn [bind]. eexists. apply tlv_make_intro.
      split; [exact T2|]. split; [unfold tlv_length; cbn [t_val]; rewrite zlen_tlv_wire; unfold tlv_len, tlv_length; cbn [t_val]; lia|].
      cbn [t_val]. now apply tlv_wire_ok. }
    destruct (encrypt_again a (CAead (mkAead (ap_num a) (rnd k0) (Some md) (ap_kdf a))) c nd0 nd k0 k t _ eq_refl eq_refl E Et (ex_intro _ tc C) L) as (ct & tag & Ee & B1 & B2 & L1 & L2).
    destruct (manifest_of_intro c ct tag (ex_intro _ tc C) B1 B2 L1 L2) as (wm & Mo & Wm & Bm).
    exists (mkMan (Some c) (MEnc ct) (Some tag)), wm. split; [|split; assumption].
    unfold aead_create_manifest, aead_encrypt, create_aead_data. rewrite Em. cbn [bind]. rewrite W. cbn [bind].
    fold c. rewrite C. cbn [bind]. rewrite Ee. cbn [bind]. exact Mo.
  - unfold oaep_create_manifest, oaep_encrypt in M.
    apply bind_ok in M as (r & E & _). apply bind_ok in E as (a0 & A & E). apply bind_ok in E as (tc0 & C0 & E).
    apply bind_ok in E as ([ct0 tag0] & E & _). set (a := oi_params i) in *.
    destruct (aead_data_again a k0 k a0 A) as (md & w0 & w & -> & Em & W0 & W & Lw & Bw).
    set (c := CRsa (mkAead (ap_num a) (rnd k) (Some md) (ap_kdf a)) None).
    assert (exists tc, ctx_tlv c = Ok tc) as (tc & C).
    { cbn [ctx_tlv optM] in C0. rewrite W0 in C0. cbn [bind] in C0. apply bind_ok in C0 as (i0 & I0 & C0).
      cbn [flatten] in I0. rewrite app_nil_r in I0.
      apply tlv_make_ok in I0 as ((T1 & L1 & _) & ->). apply tlv_make_ok in C0 as ((T2 & L2 & _) & ->).
      unfold tlv_length in L1, L2. cbn [t_type t_val] in *. rewrite zlen_tlv_wire in L2. unfold tlv_len, tlv_length in L2. cbn [t_val] in L2.
      assert (tlv_ok (mkTlv T_RSAOAEP_CTX w)) as K1 by (split; [exact T1|]; split; [unfold tlv_length; cbn [t_val]; lia|exact Bw]).
      cbn [c ctx_tlv optM]. rewrite W. cbn [bind flatten]. rewrite app_nil_r, (tlv_make_intro _ _ K1). cbn [bind]. eexists. apply tlv_make_intro.
      split; [exact T2|]. split; [unfold tlv_length; cbn [t_val]; rewrite zlen_tlv_wire; unfold tlv_len, tlv_length; cbn [t_val]; lia|].
      cbn [t_val]. now apply tlv_wire_ok. }
    destruct (encrypt_again a (CRsa (mkAead (ap_num a) (rnd k0) (Some md) (ap_kdf a)) None) c nd0 nd k0 k t _ eq_refl eq_refl E Et (ex_intro _ tc C) L) as (ct & tag & Ee & B1 & B2 & L1 & L2).
    destruct (manifest_of_intro c ct tag (ex_intro _ tc C) B1 B2 L1 L2) as (wm & Mo & Wm & Bm).
    exists (mkMan (Some c) (MEnc ct) (Some tag)), wm. split; [|split; assumption].
    unfold oaep_create_manifest, oaep_encrypt, create_aead_data. fold a. rewrite Em. cbn [bind]. rewrite W. cbn [bind].
    fold c. rewrite C. cbn [bind]. rewrite Ee. cbn [bind]. exact Mo.
Qed.
End Enc.

(* ---------------- packets ---------------- *)

Lemma man_content_intro nm e c0 w m : co_tlv (mkCO nm (Some PT_MANIFEST) (Some []) e None) = Ok c0 -> bytes_ok w ->
  8 + tlv_len c0 + zlen w < 65536 -> man_wire m = Ok w ->
  exists c p bb, man_content m nm e = Ok c /\ create_content_object c = Ok p /\ packet_wire p = Ok bb.
Proof.
  intros E0 B L Ew.
  pose proof (co_len _ _ _ _ _ E0) as L0. unfold data_len in L0. cbn [fcid_len] in L0. change (zlen []) with 0 in L0.
  apply co_tlv_ok in E0 as (_ & _ & l1 & l2 & l3 & l4 & l5 & O1 & O2 & O3 & O4 & O5 & _ & _).
  cbn [co_name co_ptype co_payload co_expiry co_fcid] in *. cbn [opt_tlvs] in O5. subst l5.
  pose proof (name_len_tlvs _ _ O1) as W1. pose proof (exp_len_tlvs _ _ O2) as W2. pose proof (wlen_nonneg l1). pose proof (wlen_nonneg l2).
  assert (payload_tlv w = Ok (mkTlv T_PAYLOAD w)) as E4.
  { apply tlv_make_intro. split; [cbn [t_type]; unfold T_PAYLOAD; lia|]. split; [unfold tlv_length; cbn [t_val]; lia|exact B]. }
  set (c := mkCO nm (Some PT_MANIFEST) (Some w) e None).
  assert (wlen (l1 ++ l2 ++ l3 ++ [mkTlv T_PAYLOAD w] ++ []) = name_len nm + exp_len e + 5 + (4 + zlen w)) as Wl.
  { destruct O3 as (t3 & E3 & ->). rewrite !wlen_app, !wlen_one, wlen_nil, (ptype_len _ _ E3), W1, W2.
    unfold tlv_len, tlv_length. cbn [t_val]. lia. }
  assert (co_tlv c = Ok (mkTlv T_OBJECT (wires (l1 ++ l2 ++ l3 ++ [mkTlv T_PAYLOAD w] ++ [])))) as Et.
  { apply co_tlv_intro; cbn [c co_name co_ptype co_payload co_expiry co_fcid opt_tlvs]; eauto. lia. }
  destruct (create_co_intro c _ Et) as (p & Ep).
  { unfold tlv_len, tlv_length. cbn [t_val]. unfold wlen in Wl. lia. }
  pose proof Ep as Ep'. apply create_co_ok in Ep' as (t9 & _ & _ & Lp & _). unfold packet_len in Lp. apply bind_ok in Lp as (bb & Ebb & _).
  exists c, p, bb. split; [|split; assumption]. unfold man_content. rewrite Ew. cbn [bind]. rewrite E4. cbn [bind]. fold c.
  rewrite Et. reflexivity.
Qed.

Section Total.
Context (P : prims).
Variable rnd : nat -> bytes.
Variable now : fl.
Variable v : tenv P.
Let o := te_opt v.
Let x := te_ctx v.
Let n := zlen (te_meta v).
Hypothesis Hx : ctx_wf x.
Hypothesis HS : sha_ok P.
Hypothesis HP : seal_adds_tag P.
Hypothesis HT : seal_total P.
Hypothesis HR : same_nonce_len rnd.
Hypothesis HB : forall k, all_bytes (rnd k).
Hypothesis Hmeta : Forall (fun c => good_hash (cm_hash c) /\ 0 <= cm_bytes c < 65536 /\ 0 <= cm_num c < 2 ^ 24) (te_meta v).
Variable total : Z.
Hypothesis Htotal : total = zsum (map cm_bytes (te_meta v)).
Variable num : Z.
Variable kk k' : nat.
Hypothesis Hnum : max_pointers P rnd now o x total kk = (Ok num, k').
Hypothesis Hp : te_p v <= num.
Hypothesis Hd : 0 <= te_d v <= te_p v.
Hypothesis Hmax : op_max o < 2 ^ 16.
(* manifests have room for their names: with no payload they are short enough
   that op_max bytes can be added *)
Hypothesis Hroom : forall id, 0 <= id -> exists nm c, impl_name (nx_man x) (Some id) = Ok nm /\
  co_tlv (mkCO nm (Some PT_MANIFEST) (Some []) (op_mexp o) None) = Ok c /\ 8 + tlv_len c + op_max o < 65536.

Lemma Hmeta' : Forall (fun c => sha_len (cm_hash c) /\ 0 <= cm_bytes c) (te_meta v).
Proof. eapply Forall_impl; [|exact Hmeta]. intros c ((_ & S & _) & B & _). split; [exact S|lia]. Qed.
Lemma meta_in i : 0 <= i < n -> good_hash (cm_hash (chunk_meta P v i)) /\ 0 <= cm_bytes (chunk_meta P v i) < 65536 /\
  0 <= cm_num (chunk_meta P v i) < 2 ^ 24.
Proof. intros Hi. rewrite Forall_forall in Hmeta. apply Hmeta. now apply chunk_meta_in. Qed.
Lemma good_chunks lo hi : 0 <= lo -> hi <= n -> Forall good_hash (chunk_hashes P v lo hi).
Proof.
  intros Hl Hh. unfold chunk_hashes. apply Forall_forall. intros h H. apply in_map_iff in H as (i & <- & Hi).
  apply zrange_in in Hi. apply meta_in. lia.
Qed.
Lemma good_kids l kids : Forall (wf P rnd now v l) kids -> Forall good_hash (kid_hashes P kids).
Proof.
  intros W. unfold kid_hashes. apply Forall_forall. intros h H. apply in_map_iff in H as (t & <- & Ht).
  rewrite Forall_forall in W. pose proof (wf_made _ _ _ _ _ _ (W t Ht)) as M. split; [|split].
  - destruct M as (_ & _ & H). unfold packet_hash in H. apply bind_ok in H as (w & _ & H). apply bind_ok in H as (t' & _ & H).
    apply Ok_inj in H. now rewrite <- H.
  - eapply pkt_hash_sha; eassumption.
  - destruct M as (_ & _ & H). unfold packet_hash in H. apply bind_ok in H as (w & _ & H). apply bind_ok in H as (t' & _ & H).
    apply Ok_inj in H. rewrite <- H. cbn [h_val]. apply all_bytes_ok. apply HS.
Qed.
Lemma chunk_bytes_small lo hi : 0 <= lo <= hi -> hi <= n -> 0 <= chunk_bytes P v (zrange lo hi) <= (hi - lo) * 65536.
Proof.
  intros Hl Hh. unfold chunk_bytes.
  assert (X : forall l, (forall i, In i l -> 0 <= cm_bytes (chunk_meta P v i) < 65536) ->
    0 <= zsum (map (fun i => cm_bytes (chunk_meta P v i)) l) <= zlen l * 65536).
  { induction l as [|a l IH]; intros H; [cbn; lia|]. cbn [map]. rewrite zsum_cons, zlen_cons.
    pose proof (H a ltac:(now left)). pose proof (IH ltac:(intros; apply H; now right)). lia. }
  specialize (X (zrange lo hi)). rewrite zrange_len, Z.max_r in X by lia. apply X. intros i Hi. apply zrange_in in Hi. apply meta_in. lia.
Qed.

(* the reference manifest *)
Lemma reference : exists m w t k1, manifest_for P rnd v (gnode (opt_if (op_nsize o) total) (ref_gs x num)) k1 m /\ man_wire m = Ok w /\
  node_tlv (gnode (opt_if (op_nsize o) total) (ref_gs x num)) = Ok t /\ 21 + zlen w <= op_max o /\ 2 <= num.
Proof.
  apply max_pointers_inv in Hnum as (_ & k1 & _ & p2 & b2 & q & _ & _ & _ & _ & _ & Hn & R2 & B2 & L2).
  apply ref_packet_inv in R2 as (m2 & w2 & t2 & b2' & M2 & W2 & T2 & B2' & L2' & _); [|assumption|lia].
  assert (b2' = b2) as -> by congruence. exists m2, w2, t2, k1. repeat split; auto. lia.
Qed.
Lemma man_len_ge nd k m w t : manifest_for P rnd v nd k m -> man_wire m = Ok w -> node_tlv nd = Ok t -> tlv_len t <= zlen w.
Proof.
  unfold manifest_for. intros M W T. destruct (op_enc (te_opt v)) as [|a|i].
  - subst m. unfold man_wire in W. cbn [m_ctx m_node m_tag wire_opt mnode_tlv bind] in W. rewrite T in W. cbn [bind flatten] in W.
    apply Ok_inj in W. subst w. rewrite app_nil_r, zlen_tlv_wire. lia.
  - unfold aead_create_manifest, aead_encrypt in M. apply bind_ok in M as (r1 & E1 & M).
    apply bind_ok in E1 as (a1 & A1 & E1). apply bind_ok in E1 as (? & _ & E1). apply bind_ok in E1 as ([ct1 tg1] & X1 & E1).
    apply Ok_inj in E1. subst r1. apply (enc_ctx_len P HP _ _ _ _ _ _ X1) in T as (L1 & G1).
    apply (manifest_of_len _ _ _ _ _ M) in W as (c1 & C1 & ->). pose proof (tlv_len_ge c1). lia.
  - unfold oaep_create_manifest, oaep_encrypt in M. apply bind_ok in M as (r1 & E1 & M).
    apply bind_ok in E1 as (a1 & A1 & E1). apply bind_ok in E1 as (? & _ & E1). apply bind_ok in E1 as ([ct1 tg1] & X1 & E1).
    apply Ok_inj in E1. subst r1. apply (enc_ctx_len P HP _ _ _ _ _ _ X1) in T as (L1 & G1).
    apply (manifest_of_len _ _ _ _ _ M) in W as (c1 & C1 & ->). pose proof (tlv_len_ge c1). lia.
Qed.
Lemma ref_len : node_len (opt_if (op_nsize o) total) (ref_gs x num) <= op_max o - 21 /\ num <= 2000.
Proof.
  destruct reference as (m & w & t & k1 & M & W & T & L & Hn). pose proof (man_len_ge _ _ _ _ _ M W T) as G.
  rewrite (gnode_len _ _ _ (ref_gs_plain x num) T) in G. split; [lia|]. rewrite ref_node_len in G by lia.
  assert (0 <= node_len (opt_if (op_nsize o) total) (ref_gs x 1)).
  { unfold node_len. assert (0 <= nd_len (opt_if (op_nsize o) total)).
    { destruct (opt_if _ _) as [b|]; cbn [nd_len]; [pose proof (int_len_pos b)|]; lia. }
    assert (0 <= zsum (map (fun x => hg_len (fst x) (zlen (snd x))) (ref_gs x 1))); [|lia].
    clear. induction (ref_gs x 1) as [|a l IH]; [cbn; lia|]. cbn [map]. rewrite zsum_cons.
    pose proof (hg_len_pos (fst a) (zlen (snd a))). pose proof (zlen_nonneg (snd a)). lia. }
  change (2 ^ 16) with 65536 in Hmax. lia.
Qed.
Lemma nc_nonneg : 0 <= im_nc (nx_man x) /\ 0 <= im_nc (nx_data x).
Proof.
  destruct reference as (m & w & t & k1 & _ & _ & T & _ & _). unfold node_tlv, node_value, gnode in T.
  cbn [n_data n_groups n_pad] in T. apply bind_ok in T as (? & _ & T). apply bind_ok in T as (vv & T & _).
  apply bind_ok in T as (? & _ & T). apply bind_ok in T as (l & E & _).
  assert (G : forall g hs t, hg_tlv (mkHG (Some g) (Some hs)) = Ok t -> nat_opt (gd_nc_id g)).
  { clear. intros g hs t H. unfold hg_tlv in H. cbn [hg_data wire_opt] in H. apply bind_ok in H as (a & Ea & _).
    apply bind_ok in Ea as (t' & Ea & _). apply gd_tlv_ok in Ea as (_ & _ & l1 & l2 & l3 & l4 & l5 & l6 & _ & _ & _ & _ & O5 & _).
    destruct (gd_nc_id g) as [z|]; cbn [nat_opt]; [|exact I]. destruct O5 as (tt & E & _). now apply int_tlv_ok in E. }
  unfold ref_gs in E. pose proof Hx as Hx'. unfold ctx_wf in Hx'. destruct (nx_two x).
  - cbn [map mapM fst snd] in E. apply bind_ok in E as (t1 & E1 & E). apply bind_ok in E as (l2 & E2 & _).
    apply bind_ok in E2 as (t2 & E2 & _). apply G in E1, E2. cbn [gd_nc_id nat_opt] in E1, E2. split; assumption.
  - destruct Hx' as (Hdm & _). cbn [map mapM fst snd] in E. apply bind_ok in E as (t1 & E1 & E). apply G in E1. cbn [gd_nc_id nat_opt] in E1.
    rewrite Hdm. split; assumption.
Qed.
Lemma kid_id_nonneg l u : wf P rnd now v l u -> uses_name_id (nx_man x) = true -> 0 <= mi_id (top u).
Proof.
  intros W U. pose proof (wf_made _ _ _ _ _ _ W) as (M & _). fold x in M. unfold impl_name, uses_name_id in *.
  destruct (im_schema (nx_man x)) as [| |[nm|] [ty|] ls f]; try discriminate.
  apply bind_ok in M as (a & Ea & _). apply number_to_array_ok in Ea. tauto.
Qed.
Lemma int_width_small k z : 0 <= z < 2 ^ 27 -> 1 <= k -> over k (Some z) <= 3.
Proof. intros H Hk. cbn [over]. unfold int_width. change (2 ^ 27) with 134217728 in H. change (2^32) with 4294967296.
  repeat match goal with |- context [if ?c then _ else _] => destruct c eqn:? end; lia. Qed.
Lemma over_le k z : 1 <= k -> over k z <= 8 - Z.min k 8.
Proof. intros Hk. destruct z as [z|]; cbn [over]; [|lia]. unfold int_width.
  repeat match goal with |- context [if ?c then _ else _] => destruct c eqn:? end; lia. Qed.
Lemma start_small z : 0 <= z < 2 ^ 24 -> over 3 (Some z) = 0.
Proof. intros H. cbn [over]. unfold int_width. repeat match goal with |- context [if ?c then _ else _] => destruct c eqn:? end; lia. Qed.
Lemma opt_over k (b : bool) z m : (over k (Some z) <= m) -> 0 <= m -> over k (opt_if b z) <= m.
Proof. destruct b; cbn [opt_if]; [auto|]. intros. cbn [over]. assumption. Qed.
Lemma opt_nat (b : bool) z : 0 <= z -> nat_opt (opt_if b z).
Proof. destruct b; cbn; auto. Qed.
Lemma opt_nat' (b : bool) z : (b = true -> 0 <= z) -> nat_opt (opt_if b z).
Proof. destruct b; cbn; auto. Qed.

Lemma planned_good nd : planned P rnd now v nd -> exists s gs, nd = gnode s gs /\ nat_opt s /\ gs <> [] /\ Forall good_group gs /\ extra nd <= 18.
Proof.
  destruct ref_len as (_ & H2000). destruct nc_nonneg as (N1 & N2).
  intros [(lo & hi & L & H & K & ->)|(l & lo & hi & kids & L & F & K & Kn & Km & W & _ & ->)].
  - destruct (chunk_bytes_small lo hi ltac:(lia) H) as (B0 & B1). assert (chunk_bytes P v (zrange lo hi) < 2 ^ 27) as B2 by (change (2 ^ 27) with 134217728; nia).
    destruct (meta_in lo ltac:(unfold n; lia)) as (_ & _ & C).
    unfold leaf_node. eexists (opt_if (op_nsize o) _), [(_, _)]. split.
    { rewrite <- (size_data_gnode P v). reflexivity. }
    split; [now apply opt_nat|]. split; [discriminate|]. split.
    + constructor; [|constructor]. split; [|cbn [fst snd gd_subtree_size gd_leaf_size gd_nc_id gd_start]].
      * split; [reflexivity|]. split; [reflexivity|]. apply good_sha, good_chunks; unfold n; lia.
      * split; [apply good_chunks; unfold n; lia|]. repeat split; cbn [nat_opt]; try (now apply opt_nat); try assumption.
    + unfold extra. cbn [n_groups map]. unfold group_extra. cbn [hg_data gd_subtree_size gd_leaf_size gd_start]. rewrite zsum_cons. change (zsum []) with 0.
      pose proof (opt_over 1 (op_gsize (te_opt v)) _ 3 (int_width_small 1 _ (conj B0 B2) ltac:(lia)) ltac:(lia)).
      pose proof (opt_over 1 (op_gleaf (te_opt v)) _ 3 (int_width_small 1 _ (conj B0 B2) ltac:(lia)) ltac:(lia)).
      pose proof (opt_over 3 (uses_name_id (nx_man (te_ctx v))) _ 0 ltac:(rewrite (start_small _ C); lia) ltac:(lia)). lia.
  - pose proof F as (e0 & He0 & _). apply kids_bytes_follow in F as (e & He & Ek).
    assert (0 <= kids_bytes P v kids) as Kb.
    { rewrite Ek. destruct (op_nsize _); [|lia]. apply (chunk_bytes_nonneg P v Hmeta'); lia. }
    destruct (chunk_bytes_small lo hi ltac:(lia) ltac:(unfold n; lia)) as (B0 & B1). assert (chunk_bytes P v (zrange lo hi) < 2 ^ 27) as B2 by (change (2 ^ 27) with 134217728; nia).
    destruct (meta_in lo ltac:(unfold n; lia)) as (_ & _ & C).
    pose proof (good_chunks lo hi ltac:(lia) ltac:(unfold n; lia)) as S1. pose proof (good_kids l kids W) as S2.
    assert (uses_name_id (nx_man x) = true -> 0 <= first_id kids) as Fi.
    { intros U. destruct kids as [|u kids]; [contradiction|]. cbn [first_id]. inversion W; subst. eapply kid_id_nonneg; eauto. }
    pose proof (opt_over 1 (op_gsize (te_opt v)) _ 3 (int_width_small 1 _ (conj B0 B2) ltac:(lia)) ltac:(lia)) as O1.
    pose proof (opt_over 1 (op_gleaf (te_opt v)) _ 3 (int_width_small 1 _ (conj B0 B2) ltac:(lia)) ltac:(lia)) as O2.
    pose proof (opt_over 3 (uses_name_id (nx_data (te_ctx v))) _ 0 ltac:(rewrite (start_small _ C); lia) ltac:(lia)) as O3.
    unfold inner_node, extra. fold o x in O1, O2, O3 |- *. destruct (nx_two x).
    + eexists (opt_if (op_nsize o) _), [(_, _); (_, _)]. split.
      { rewrite <- (size_data_gnode P v). reflexivity. }
      split; [apply opt_nat; lia|]. split; [discriminate|]. split.
      * constructor; [|constructor; [|constructor]]; (split; [|cbn [fst snd gd_subtree_size gd_leaf_size gd_nc_id gd_start]]);
          try (split; [reflexivity|]; split; [reflexivity|]; apply good_sha; assumption).
        -- split; [assumption|]. repeat split; cbn [nat_opt]; try (now apply opt_nat); try assumption.
        -- split; [assumption|]. repeat split; cbn [nat_opt]; try (now apply opt_nat); try assumption. now apply opt_nat'.
      * cbn [n_groups map]. unfold group_extra. cbn [hg_data gd_subtree_size gd_leaf_size gd_start]. rewrite !zsum_cons. change (zsum []) with 0.
        pose proof (over_le 1 (opt_if (op_gsize o) (kids_bytes P v kids)) ltac:(lia)).
        pose proof (over_le 3 (opt_if (uses_name_id (nx_man x)) (first_id kids)) ltac:(lia)).
        pose proof (opt_over 1 (op_gleaf o) 0 0 ltac:(cbn; lia) ltac:(lia)). lia.
    + eexists (opt_if (op_nsize o) _), [(_, _)]. split.
      { rewrite <- (size_data_gnode P v). reflexivity. }
      split; [apply opt_nat; lia|]. split; [discriminate|]. split.
      * constructor; [|constructor]. split; [|cbn [fst snd gd_subtree_size gd_leaf_size gd_nc_id gd_start]].
        -- split; [reflexivity|]. split; [reflexivity|]. apply Forall_app. split; now apply good_sha.
        -- split; [now apply Forall_app|]. repeat split; cbn [nat_opt]; try (apply opt_nat; lia); try assumption; exact I.
      * cbn [n_groups map]. unfold group_extra. cbn [hg_data gd_subtree_size gd_leaf_size gd_start]. rewrite !zsum_cons. change (zsum []) with 0.
        pose proof (over_le 1 (opt_if (op_gsize o) (chunk_bytes P v (zrange lo hi) + kids_bytes P v kids)) ltac:(lia)).
        change (over 3 None) with 0. lia.
Qed.

Lemma planned_encodes nd : planned P rnd now v nd -> exists t, node_tlv nd = Ok t /\ tlv_len t < 65536 /\
  (forall g, In g (n_groups nd) -> exists tg, hg_tlv g = Ok tg).
Proof.
  intros Pl. destruct (planned_good nd Pl) as (s & gs & E & Ns & Ng & G & X).
  destruct reference as (_ & _ & _ & _ & _ & _ & _ & _ & Hn2).
  pose proof (planned_len P rnd now v Hx HS Hmeta' total Htotal nd s gs num Pl Hp Hn2 E) as L.
  destruct ref_len as (RL & _). fold o x in L. change (2 ^ 16) with 65536 in Hmax.
  destruct (gnode_intro s gs Ns Ng G) as (t & T); [lia|]. rewrite <- E in T.
  exists t. split; [exact T|]. split.
  - rewrite E in T. rewrite (gnode_len s gs t) ; [lia| |exact T]. eapply Forall_impl; [|exact G]. intros y Hy. apply Hy.
  - intros g Hg. unfold node_tlv, node_value in T. apply bind_ok in T as (? & _ & T). apply bind_ok in T as (vv & T & _).
    apply bind_ok in T as (? & _ & T). apply bind_ok in T as (lg & M & _). clear - Hg M. revert lg M.
    induction (n_groups nd) as [|a l IH]; intros lg M; [destruct Hg|]. cbn [mapM] in M. apply bind_ok in M as (ta & Ea & M).
    apply bind_ok in M as (l' & Ml & _). destruct Hg as [<-|Hg]; [eauto|]. eapply IH; eauto.
Qed.

Lemma planned_packet nd id nm k : planned P rnd now v nd -> 0 <= id -> impl_name (nx_man x) (Some id) = Ok nm ->
  exists p, fst (fac_node_packet P rnd now o nd nm k) = Ok p.
Proof.
  intros Pl Hid Hnm. destruct (planned_encodes nd Pl) as (t & T & Lt & _).
  destruct reference as (m0 & _ & _ & k0 & M0 & _).
  destruct (manifest_again P rnd HP HT HR HB v _ k0 m0 nd k t M0 T Lt) as (m & w & M & W & Bw).
  destruct (planned_good nd Pl) as (_ & _ & _ & _ & _ & _ & X).
  pose proof (manifest_len P rnd now v Hx HS Hmeta' total Htotal HP HR nd k m w num kk k' Pl Hp Hnum M W) as L. fold o in L.
  destruct (Hroom id Hid) as (nm' & c0 & Hnm' & C0 & R). rewrite Hnm in Hnm'. apply Ok_inj in Hnm'. subst nm'.
  destruct (man_content_intro nm (op_mexp o) c0 w m C0 Bw) as (c & p & bb & Ec & Ep & Eb); [lia|exact W|].
  destruct (packet_hash_intro P p bb HS Eb) as (h & Eh).
  exists p. unfold fac_node_packet, fac_packet, fac_build, sbind, lift, sret.
  assert (fst (fac_from_node P rnd o false nd k) = Ok m) as Ef.
  { unfold fac_from_node, sbind, lift, sget, smod, sret. unfold manifest_for in M. fold o in M.
    destruct (op_enc o).
    - subst m. rewrite W. reflexivity.
    - unfold aead_create_manifest in M. rewrite M. reflexivity.
    - unfold oaep_create_manifest in M. rewrite M. reflexivity. }
  destruct (fac_from_node P rnd o false nd k) as [r k1]. cbn [fst] in Ef. subst r. rewrite W.
  replace (zlen w <=? op_max o) with true by lia. cbn [guard]. rewrite Ec, Ep, Eh. reflexivity.
Qed.

(* so building the tree cannot raise *)
Lemma no_enc_fail e : ~ enc_fail P rnd now v e.
Proof.
  intros [(nd & Pl & H)|[(nd & g & Pl & Hg & H)|[(id & Hid & H)|(nd & id & nm & k & Pl & Hid & Hn & H)]]].
  - destruct (planned_encodes nd Pl) as (t & T & _). congruence.
  - destruct (planned_encodes nd Pl) as (_ & _ & _ & G). destruct (G g Hg) as (tg & E). congruence.
  - destruct (Hroom id Hid) as (nm & _ & E & _). fold x in H. congruence.
  - destruct (planned_packet nd id nm k Pl Hid Hn) as (p & E). fold o in H. congruence.
Qed.
End Total.
