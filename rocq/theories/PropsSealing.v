(* C45, C47, C48: encryption succeeds for every node that can be encoded, with
   every kind of key, and the checks on the context hold for both decryptors. *)
From Coq Require Import ZArith List Bool Lia ZifyBool.
From Verif Require Import Py Tlv Float Core Flic Crypto Spec WireSpec TlvProofs FloatProofs CoreProofs FlicProofs CryptoProofs PropsTlv PropsCore PropsFlic PropsWire PropsCrypto PropsExists.
Import ListNotations.
Open Scope Z_scope.
Opaque tlv_make tlv_wire tlv_deserialize.

(* ---------------- specification ---------------- *)

(* what AES-GCM and AES-CCM do with a 12-byte IV and less than 64 KiB of
   plaintext: they give the ciphertext and a 16-byte tag *)
Definition cipher_total (P : prims) : Prop := forall a k iv pt aad,
  (length k = 16 \/ length k = 24 \/ length k = 32)%nat -> length iv = 12%nat -> zlen pt < 2 ^ 16 ->
  all_bytes k -> all_bytes iv -> all_bytes pt -> all_bytes aad ->
  exists c, pr_seal P a k iv pt aad = Ok c /\ all_bytes c /\ zlen c = zlen pt + 16.
(* what RSA-OAEP with SHA-256 does: it takes up to 66 bytes less than the
   modulus and gives as many bytes as the modulus has *)
Definition oaep_total (P : prims) : Prop := forall pk label seed pt,
  zlen pt <= (pr_bits P pk + 7) / 8 - 66 -> all_bytes pt ->
  exists c, pr_oaep_enc P pk label seed pt = Ok c /\ all_bytes c /\ zlen c <= (pr_bits P pk + 7) / 8.
Definition hash_total (P : prims) : Prop := forall b, length (pr_sha P b) = 32%nat /\ all_bytes (pr_sha P b).

(* parameters with everything in range; the nonce is as long as the salt leaves room *)
Definition key_ok (k : aeadkey) : Prop := (length (ak_key k) = 16 \/ length (ak_key k) = 32)%nat /\ all_bytes (ak_key k).
Definition params_ok (p : aparams) : Prop :=
  key_ok (ap_key p) /\ u64 (ap_num p) /\ opt_all (fun s => 0 <= s < 2 ^ 32) (ap_salt p) /\ opt_all kdf_ok (ap_kdf p) /\
  zlen (opt_bytes w_kdf (ap_kdf p)) < 60000.
Definition nonce_ok (p : aparams) (nonce : bytes) : Prop :=
  length nonce = (match ap_salt p with None => 12 | Some _ => 8 end)%nat /\ all_bytes nonce.

(* ---------------- proofs ---------------- *)

Lemma uint_small ty n : zlen (uint_frame ty n) <= 12.
Proof.
  assert (1 <= int_width n <= 8) as R.
  { unfold int_width. destruct (n <? 2 ^ 8), (n <? 2 ^ 16), (n <? 2 ^ 24), (n <? 2 ^ 32); lia. }
  unfold uint_frame. rewrite zlen_frame. unfold zlen. rewrite be_bytes_length, Z2Nat.id; lia.
Qed.
Lemma mode_exists k : key_ok k -> exists md, mode_of_key k = Ok md /\ 1 <= md <= 4.
Proof.
  intros (H & _). assert (exists md, fits_mode k md /\ 1 <= md <= 4) as (md & F & R).
  { unfold fits_mode. destruct (ak_alg k), H as [H|H];
    [exists 1|exists 2|exists 3|exists 4]; (split; [|lia]); auto 10. }
  exists md. split; [apply mode_fits; exact F|exact R].
Qed.
Lemma aead_fits p nonce md : params_ok p -> nonce_ok p nonce -> 1 <= md <= 4 ->
  let a := mkAead (ap_num p) nonce (Some md) (ap_kdf p) in aead_ok a /\ zlen (w_aead a) < 60060.
Proof.
  intros (K & N & S & D & L) (Ln & Bn) R a. split.
  - split; [exact N|]. split; [exact Bn|]. split; [intros x [= <-]; unfold u64; lia|exact D].
  - unfold w_aead, a. cbn [a_keynum a_nonce a_mode a_kdf opt_bytes]. rewrite !zlen_app, zlen_frame.
    pose proof (uint_small 0 (ap_num p)). pose proof (uint_small 2 md).
    assert (zlen nonce <= 12) by (unfold zlen; rewrite Ln; destruct (ap_salt p); lia). lia.
Qed.
Lemma create_total p nonce : params_ok p -> nonce_ok p nonce ->
  exists md, create_aead_data p nonce = Ok (mkAead (ap_num p) nonce (Some md) (ap_kdf p)) /\ 1 <= md <= 4.
Proof.
  intros Hp Hn. destruct (mode_exists (ap_key p) (proj1 Hp)) as (md & E & R). exists md. split; [|exact R].
  destruct (aead_fits p nonce md Hp Hn R) as (A & L). destruct (can_aead _ A) as (W & _). { lia. }
  unfold create_aead_data. rewrite E. cbn [bind]. rewrite W. reflexivity.
Qed.
Lemma iv_total p nonce : params_ok p -> nonce_ok p nonce -> exists iv, iv_of p nonce = Ok iv /\ length iv = 12%nat /\ all_bytes iv.
Proof.
  intros (_ & _ & S & _) (Ln & Bn). unfold iv_of. destruct (ap_salt p) as [s|]; [|exists nonce; split; [reflexivity|split; [exact Ln|exact Bn]]].
  assert (0 <= s < 2 ^ 32) as Rs by exact (S s eq_refl). clear S. unfold to_bytes4. change (2 ^ 32) with 4294967296 in *. replace ((0 <=? s) && (s <? 4294967296)) with true by lia. cbn [bind].
  eexists. split; [reflexivity|]. split; [cbn [app length]; lia|].
  change (2 ^ 24) with 16777216. change (2 ^ 16) with 65536. change (2 ^ 8) with 256.
  intros b Hb. apply in_app_or in Hb as [Hb|Hb]; [|apply Bn, Hb].
  pose proof (Z.mod_pos_bound (s / 65536) 256 ltac:(lia)). pose proof (Z.mod_pos_bound (s / 256) 256 ltac:(lia)). pose proof (Z.mod_pos_bound s 256 ltac:(lia)).
  assert (0 <= s / 16777216 < 256) by (split; [apply Z.div_pos; lia|apply Z.div_lt_upper_bound; lia]).
  cbn [In] in Hb. lia.
Qed.
Lemma seal_total_ctx P p nonce n tn c : cipher_total P -> params_ok p -> nonce_ok p nonce -> node_tlv n = Ok tn ->
  a_nonce (ctx_aead c) = nonce -> can ctx_tlv w_ctx c ->
  exists ct tag, encrypt_with_ctx P p n c = Ok (ct, tag) /\ zlen ct = zlen (t_val tn) /\ zlen tag = 16 /\ bytes_ok ct /\ bytes_ok tag.
Proof.
  intros HC Hp Hn Et Ec (tc & Etc & Wc & Bc). destruct (iv_total p nonce Hp Hn) as (iv & Eiv & Liv & Biv).
  pose proof (node_tlv_tlv_ok _ _ Et) as (_ & L & Bt). unfold tlv_length in L.
  destruct Hp as ((Lk & Bk) & _). destruct (HC (ak_alg (ap_key p)) (ak_key (ap_key p)) iv (t_val tn) (tlv_wire tc)) as (out & Eo & Bo & Lo);
    [tauto|exact Liv|exact L|exact Bk|exact Biv|apply all_bytes_ok; exact Bt|rewrite Wc; apply all_bytes_ok; exact Bc|].
  unfold encrypt_with_ctx. rewrite Ec, Eiv. cbn [bind]. rewrite Et. cbn [bind]. rewrite Etc. cbn [bind].
  assert (exists ct tag, out = ct ++ tag /\ zlen ct = zlen (t_val tn) /\ zlen tag = 16) as (ct & tag & -> & Lc & Lt).
  { exists (firstn (length (t_val tn)) out), (skipn (length (t_val tn)) out). rewrite firstn_skipn. split; [reflexivity|].
    unfold zlen in *. rewrite firstn_length, skipn_length. lia. }
  apply all_bytes_ok in Bo. apply bytes_ok_app in Bo as (B1 & B2).
  exists ct, tag. split; [|auto]. unfold aead_seal. rewrite Eo. cbn [bind].
  rewrite ztake_app by (rewrite zlen_app; lia). rewrite (array_B_intro ct B1). cbn [bind].
  rewrite zskip_app by reflexivity. rewrite (array_B_intro tag B2). cbn [bind].
  destruct (make_frame T_ENCRYPTED_NODE ct ltac:(unfold T_ENCRYPTED_NODE; lia) B1 ltac:(lia)) as (t1 & E1 & _).
  destruct (make_frame T_AUTH_TAG tag ltac:(unfold T_AUTH_TAG; lia) B2 ltac:(lia)) as (t2 & E2 & _).
  unfold octet_tlv. rewrite E1. cbn [bind]. rewrite E2. reflexivity.
Qed.
Lemma manifest_total c ct tag : can ctx_tlv w_ctx c -> zlen ct < 65536 -> zlen tag = 16 -> bytes_ok ct -> bytes_ok tag ->
  manifest_of (c, ct, tag) = Ok (mkMan (Some c) (MEnc ct) (Some tag)).
Proof.
  intros (tc & Etc & _) L1 L2 B1 B2. unfold manifest_of, man_wire. cbn [m_ctx m_node m_tag wire_opt mnode_tlv]. rewrite Etc. cbn [bind].
  destruct (make_frame T_ENCRYPTED_NODE ct ltac:(unfold T_ENCRYPTED_NODE; lia) B1 ltac:(lia)) as (t1 & E1 & _).
  destruct (make_frame T_AUTH_TAG tag ltac:(unfold T_AUTH_TAG; lia) B2 ltac:(lia)) as (t2 & E2 & _).
  unfold octet_tlv. rewrite E1. cbn [bind]. rewrite E2. reflexivity.
Qed.
Lemma node_size n tn : node_tlv n = Ok tn -> zlen (t_val tn) < 65536.
Proof. intros E. apply node_tlv_tlv_ok in E as (_ & L & _). exact L. Qed.

(* ---------------- theorems ---------------- *)

(* every node that can be encoded can be encrypted; the cost is the context and a 16-byte tag *)
Theorem C45_exists : forall P p nonce n tn, cipher_total P -> params_ok p -> nonce_ok p nonce -> node_tlv n = Ok tn ->
  exists m md ct tag, aead_create_manifest P p nonce n = Ok m /\
    m = mkMan (Some (CAead (mkAead (ap_num p) nonce (Some md) (ap_kdf p)))) (MEnc ct) (Some tag) /\
    zlen ct = zlen (t_val tn) /\ zlen tag = 16.
Proof.
  intros P p nonce n tn HC Hp Hn Et. destruct (create_total p nonce Hp Hn) as (md & Ea & R).
  set (a := mkAead (ap_num p) nonce (Some md) (ap_kdf p)) in *. destruct (aead_fits p nonce md Hp Hn R) as (A & L).
  assert (can ctx_tlv w_ctx (CAead a)) as C. { apply can_ctx; [exact A|]. cbn [w_ctx]. rewrite !zlen_frame. fold a in L. lia. }
  destruct (seal_total_ctx P p nonce n tn (CAead a) HC Hp Hn Et eq_refl C) as (ct & tag & E & Lc & Lt & B1 & B2).
  pose proof (node_size _ _ Et). exists (mkMan (Some (CAead a)) (MEnc ct) (Some tag)), md, ct, tag. split; [|auto].
  unfold aead_create_manifest, aead_encrypt. rewrite Ea. cbn [bind]. pose proof C as (tc & Etc & _). rewrite Etc. cbn [bind]. rewrite E. cbn [bind].
  apply manifest_total; auto; lia.
Qed.
(* only keys of 16 and 32 bytes can be used, although AES also has 24 *)
Theorem C45_key_sizes : forall P p nonce n, length (ak_key (ap_key p)) <> 16%nat -> length (ak_key (ap_key p)) <> 32%nat ->
  aead_create_manifest P p nonce n = Err ValueError.
Proof.
  intros P p nonce n H1 H2. unfold aead_create_manifest, aead_encrypt, create_aead_data, mode_of_key, ak_bits, zlen.
  replace (_ =? 128) with false by lia. replace (_ =? 256) with false by lia. destruct (ak_alg (ap_key p)); reflexivity.
Qed.

(* neither decryptor invokes the cipher when the mode does not fit the key: the
   error does not depend on the primitives *)
Theorem C47_mode_both : forall P p m c ct tag (mine : secctx -> bool),
  m_node m = MEnc ct -> m_ctx m = Some c -> m_tag m = Some tag -> mine c = true -> a_keynum (ctx_aead c) = ap_num p ->
  (forall md, a_mode (ctx_aead c) = Some md -> alg_of_mode md <> Some (ak_alg (ap_key p))) ->
  decrypt_manifest_with P mine p m = Err (match a_mode (ctx_aead c) with Some _ => DecryptionError | None => AttributeError end).
Proof.
  intros P p m c ct tag mine H1 H2 H3 Hc Hk H. unfold decrypt_manifest_with. rewrite H1, H2, H3, Hc.
  unfold decrypt_node. cbn [guard bind]. rewrite Hk, Z.eqb_refl. cbn [guard bind].
  unfold check_mode. destruct (a_mode (ctx_aead c)) as [md|]; [|reflexivity]. specialize (H md eq_refl).
  unfold alg_of_mode in H. unfold MODE_GCM_128, MODE_GCM_256, MODE_CCM_128, MODE_CCM_256.
  destruct (ak_alg (ap_key p)).
  - replace ((md =? 1) || (md =? 2)) with false; [reflexivity|]. destruct (md =? 1), (md =? 2); try reflexivity; exfalso; apply H; reflexivity.
  - replace ((md =? 3) || (md =? 4)) with false; [reflexivity|]. destruct (md =? 3) eqn:E3, (md =? 4) eqn:E4; try reflexivity; exfalso; apply H;
    (replace ((md =? 1) || (md =? 2)) with false by lia); cbn [orb]; rewrite ?orb_true_r; reflexivity.
Qed.
(* the whole RSA-OAEP decryptor, with the parameters it ends up with *)
Theorem C47_oaep_mode : forall P ks oc m a w ct tag i ks' oc',
  m_node m = MEnc ct -> m_ctx m = Some (CRsa a w) -> m_tag m = Some tag ->
  oaep_get_impl P ks oc a w = (Ok i, ks', oc') -> a_keynum a = ap_num (oi_params i) ->
  (forall md, a_mode a = Some md -> alg_of_mode md <> Some (ak_alg (ap_key (oi_params i)))) ->
  oaep_decrypt_manifest P ks oc m = (Err (match a_mode a with Some _ => DecryptionError | None => AttributeError end), ks', oc').
Proof.
  intros P ks oc m a w ct tag i ks' oc' H1 H2 H3 Hi Hk H. unfold oaep_decrypt_manifest. rewrite H2, Hi.
  rewrite (C47_mode_both P (oi_params i) m (CRsa a w) ct tag is_rsa_ctx H1 H2 H3 eq_refl Hk H). reflexivity.
Qed.

(* a key can be wrapped whenever it has a salt, the KDF data (if any) has its
   info, and the RSA modulus is large enough; the manifest can then be made
   with and without the wrapped key *)
Lemma wrapper_total P k seed p : oaep_total P -> hash_total P -> params_ok p -> ap_salt p <> None ->
  opt_all (fun d => k_info d <> None) (ap_kdf p) ->
  4 + zlen (ak_key (ap_key p)) + 66 <= (pr_bits P (rsa_pub P k) + 7) / 8 -> (pr_bits P (rsa_pub P k) + 7) / 8 < 4096 ->
  exists wr, wrapper_create P k seed p = Ok wr /\ wrapper_ok wr /\ zlen (w_wrapper wr) < 4500.
Proof.
  intros HO HH Hp Hs Hi Hk Hm. destruct (HH (pr_der P (rsa_pub P k))) as (Lh & Bh).
  set (kid := mkHash T_SHA_256 (pr_sha P (pr_der P (rsa_pub P k)))).
  assert (hash_ok kid) as Hkid. { split; [cbn; unfold T_SHA_256; lia|]. split; [cbn [kid h_val]; lia|exact Bh]. }
  assert (rsa_keyid P k = Ok kid) as Ek.
  { unfold rsa_keyid. destruct (can_hash kid Hkid) as (t & E & _). fold kid. rewrite E. reflexivity. }
  pose proof Hp as ((Lk & Bk) & N & S & D & L).
  destruct (mode_exists (ap_key p) (proj1 Hp)) as (md & Em & R).
  assert (exists label, wrap_label (ap_num p) (Some md) (ap_kdf p) kid T_SHA_256 = Ok label) as (label & El).
  { unfold wrap_label.
    assert (exists kb, match ap_kdf p with None => Ok [] | Some k0 => match k_info k0 with None => Err AttributeError
        | Some i => bind (octet_tlv T_KDF_INFO i) (fun t => Ok (tlv_wire t)) end end = Ok kb) as (kb & Ekb).
    { destruct (ap_kdf p) as [d|]; [|eauto]. specialize (Hi d eq_refl). destruct (D d eq_refl) as (_ & Bi). destruct (k_info d) as [i|] eqn:Ei; [|congruence].
      cbn [opt_bytes] in L. unfold w_kdf in L. rewrite Ei in L. cbn [opt_bytes] in L. rewrite zlen_frame, zlen_app, zlen_frame in L.
      pose proof (zlen_nonneg (uint_frame 6 (k_alg d))). destruct (make_frame T_KDF_INFO i ltac:(unfold T_KDF_INFO; lia)) as (t & E & _); [apply all_bytes_ok, Bi; reflexivity|lia|].
      unfold octet_tlv. rewrite E. cbn [bind]. eauto. }
    rewrite Ekb. cbn [bind].
    destruct (can_int T_KEYNUM (ap_num p) ltac:(unfold T_KEYNUM; lia) N) as (t1 & E1 & _).
    destruct (can_int T_AEADMode md ltac:(unfold T_AEADMode; lia) ltac:(unfold u64; lia)) as (t2 & E2 & _).
    destruct (can_hash_in T_KEYID kid ltac:(unfold T_KEYID; lia) Hkid) as (t3 & E3 & _).
    { unfold w_hash_in, w_hash. rewrite !zlen_frame. cbn [kid h_val]. unfold zlen. rewrite Lh. lia. }
    destruct (can_int T_HASH_ALG T_SHA_256 ltac:(unfold T_HASH_ALG; lia) ltac:(unfold u64, T_SHA_256; lia)) as (t4 & E4 & _).
    rewrite E1. cbn [bind]. rewrite E2. cbn [bind]. rewrite E3. cbn [bind]. rewrite E4. cbn [bind]. eauto. }
  destruct (ap_salt p) as [s|] eqn:Es; [|congruence]. assert (0 <= s < 2 ^ 32) as Rs by exact (S s eq_refl). clear S. rename Rs into S.
  destruct (C05_uint32 s) as [Hu _]. destruct (Hu S) as (sb & Esb & Lsb & _).
  assert (bytes_ok sb) as Bsb. { unfold uint32_to_array in Esb. mon. apply array_B_ok in Esb as [? ->]. assumption. }
  destruct (HO (rsa_pub P k) label seed (sb ++ ak_key (ap_key p))) as (c & Ec & Bc & Lc).
  { rewrite zlen_app. lia. }
  { apply all_bytes_ok, bytes_ok_app. split; [exact Bsb|apply all_bytes_ok; exact Bk]. }
  apply all_bytes_ok in Bc.
  assert (wrap_create P k seed p = Ok c) as Ew.
  { unfold wrap_create. rewrite Es. change (2 ^ 32) with 4294967296 in S. replace ((0 <=? s) && (s <=? 4294967295)) with true by lia. cbn [guard bind].
    rewrite Esb. cbn [bind]. rewrite Ek. cbn [bind]. rewrite Em. cbn [bind]. rewrite El. cbn [bind]. unfold rsa_oaep_encrypt.
    replace (zlen (sb ++ ak_key (ap_key p)) <=? (pr_bits P (rsa_pub P k) + 7) / 8 - 66) with true by (rewrite zlen_app; lia). cbn [guard bind].
    rewrite Ec. cbn [bind]. rewrite (array_B_intro c Bc). cbn [bind].
    destruct (make_frame T_WRAPPED_KEY c ltac:(unfold T_WRAPPED_KEY; lia) Bc ltac:(lia)) as (t & E & _). unfold octet_tlv. rewrite E. reflexivity. }
  set (wr := mkWrap kid None (Some T_SHA_256) (Some c)).
  assert (wrapper_ok wr) as Hw.
  { split; [exact Hkid|]. split; [intros x [=]|]. split; [intros x [= <-]; unfold u64, T_SHA_256; lia|intros x [= <-]; apply all_bytes_ok; exact Bc]. }
  assert (zlen (w_wrapper wr) < 4500) as Lw.
  { unfold w_wrapper, wr. cbn [w_keyid w_keylink w_hashalg w_key opt_bytes app]. rewrite !zlen_app, zlen_frame. unfold w_hash_in, w_hash. rewrite !zlen_frame.
    pose proof (uint_small 3 T_SHA_256). cbn [kid h_val]. unfold zlen at 1. rewrite Lh. change (zlen (@nil Z)) with 0. lia. }
  exists wr. split; [|auto]. unfold wrapper_create. rewrite Ew. cbn [bind]. rewrite Ek. cbn [bind]. fold wr.
  destruct (can_wrapper wr Hw ltac:(lia)) as (E & _). rewrite E. reflexivity.
Qed.
Theorem C48_exists : forall P k seed p, oaep_total P -> hash_total P -> params_ok p -> ap_salt p <> None ->
  opt_all (fun d => k_info d <> None) (ap_kdf p) ->
  4 + zlen (ak_key (ap_key p)) + 66 <= (pr_bits P (rsa_pub P k) + 7) / 8 -> (pr_bits P (rsa_pub P k) + 7) / 8 < 4096 ->
  exists wr, wrapper_create P k seed p = Ok wr /\
  forall include nonce n tn, cipher_total P -> nonce_ok p nonce -> node_tlv n = Ok tn ->
  exists m, oaep_create_manifest P (mkOI (Some wr) p) include nonce n = Ok m.
Proof.
  intros P k seed p HO HH Hp Hs Hi Hk Hm. destruct (wrapper_total P k seed p HO HH Hp Hs Hi Hk Hm) as (wr & Ew & Kw & Lw).
  exists wr. split; [exact Ew|]. intros include nonce n tn HC Hn Et.
  destruct (create_total p nonce Hp Hn) as (md & Ea & R). destruct (aead_fits p nonce md Hp Hn R) as (A & L).
  set (a := mkAead (ap_num p) nonce (Some md) (ap_kdf p)) in *. set (c := CRsa a (if include then Some wr else None)).
  assert (can ctx_tlv w_ctx c) as C.
  { apply can_ctx; unfold c.
    - split; [exact A|]. destruct include; [intros x [= <-]; exact Kw|intros x [=]].
    - cbn [w_ctx]. rewrite !zlen_frame, zlen_app. fold a in L. destruct include; cbn [opt_bytes]; [|change (zlen (@nil Z)) with 0]; lia. }
  destruct (seal_total_ctx P p nonce n tn c HC Hp Hn Et eq_refl C) as (ct & tag & E & Lc & Lt & B1 & B2).
  pose proof (node_size _ _ Et). exists (mkMan (Some c) (MEnc ct) (Some tag)).
  unfold oaep_create_manifest, oaep_encrypt. cbn [oi_params oi_wrapper]. rewrite Ea. cbn [bind]. fold c. pose proof C as (tc & Etc & _). rewrite Etc. cbn [bind]. rewrite E. cbn [bind].
  apply manifest_total; auto; lia.
Qed.

(* the hypotheses are met: the toy primitives, and parameters as the command line makes them *)
Lemma toy_sum_byte l : 0 <= toy_sum l < 256.
Proof. apply Z.mod_pos_bound. reflexivity. Qed.
Lemma toy_cipher_total : cipher_total toy.
Proof.
  intros a k iv pt aad _ _ _ _ _ Bp _. eexists. split; [reflexivity|]. split.
  - intros b Hb. apply in_app_or in Hb as [Hb|Hb]; [apply Bp, Hb|]. apply repeat_spec in Hb. subst b. apply toy_sum_byte.
  - rewrite zlen_app. unfold zlen at 2. rewrite repeat_length. lia.
Qed.
Lemma toy_oaep_total : oaep_total toy.
Proof.
  intros pk label seed pt L B. eexists. split; [reflexivity|]. split.
  - intros b [<-|Hb]; [apply toy_sum_byte|apply B, Hb].
  - rewrite zlen_cons. cbn [toy pr_bits] in *. change ((2048 + 7) / 8) with 256 in *. lia.
Qed.
Lemma toy_hash_total : hash_total toy.
Proof. intros b. split; [reflexivity|]. intros x Hx. apply repeat_spec in Hx. subst x. apply toy_sum_byte. Qed.
Definition ex_params := mkAP (mkAK CCM (repeat 5 32)) 300 (Some 77) (Some (mkKdf 1 (Some [1;2;3]))) None.
Example C45_exists_ex : params_ok ex_params /\ nonce_ok ex_params (repeat 9 8) /\ (exists tn, node_tlv ex_node = Ok tn) /\
  opt_all (fun d => k_info d <> None) (ap_kdf ex_params) /\
  4 + zlen (ak_key (ap_key ex_params)) + 66 <= (pr_bits toy (rsa_pub toy (RPriv (P := toy) 3)) + 7) / 8.
Proof.
  split; [|split; [|split; [|split]]].
  - unfold params_ok, key_ok, ex_params; cbn [ap_key ap_num ap_salt ap_kdf ak_key].
    split; [split; [right; reflexivity|in_range]|]. split; [in_range|]. split; [in_range|]. split; [|vm_compute; reflexivity].
    in_range. unfold kdf_ok; cbn [k_alg k_info]. in_range.
  - split; [reflexivity|in_range].
  - eexists. vm_compute. reflexivity.
  - intros d [= <-]. discriminate.
  - vm_compute. discriminate.
Qed.
Example C47_ex_both : exists m c, m_ctx m = Some c /\ is_rsa_ctx c = true /\ a_keynum (ctx_aead c) = ap_num ex_params /\
  (forall md, a_mode (ctx_aead c) = Some md -> alg_of_mode md <> Some (ak_alg (ap_key ex_params))) /\
  decrypt_manifest_with toy is_rsa_ctx ex_params m = Err DecryptionError.
Proof.
  exists (mkMan (Some (CRsa (mkAead 300 (repeat 9 8) (Some 2) None) None)) (MEnc [1;2]) (Some [3])).
  eexists. split; [reflexivity|]. split; [reflexivity|]. split; [reflexivity|]. split; [intros md [= <-]; vm_compute; discriminate|reflexivity].
Qed.
Print Assumptions C45_exists.
Print Assumptions C45_key_sizes.
Print Assumptions C47_mode_both.
Print Assumptions C47_oaep_mode.
Print Assumptions C48_exists.
