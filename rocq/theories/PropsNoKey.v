(* C74: without the key a receiver gets nothing. *)
From Coq Require Import ZArith List Bool Lia ZifyBool.
From Verif Require Import Py Tlv TlvProofs Float Core CoreProofs PropsCore Flic WireSpec FlicProofs PropsFlic Crypto CryptoProofs
  PropsCrypto Optimizer PropsOptimizer Tree TreeSpec TreeProofs TreeFacts PropsTree Store StoreProofs PropsStore Traversal TraversalSpec TraversalProofs
  EndSpec EndProofs ReadProofs PropsEnd PropsAuth Uri Apps PropsApps.
Import ListNotations.
Open Scope Z_scope.
Opaque tlv_make tlv_wire tlv_deserialize.

(* ---------------- the key number on the wire ---------------- *)

Lemma int_parse_wraps ty n t : int_tlv ty n = Ok t -> int_parse ty t = Ok (n mod 2 ^ 64).
Proof.
  intros H. apply int_tlv_ok in H as ((Ho & _) & Ht & Hn & Hv). unfold int_parse. rewrite Ht, Z.eqb_refl. cbn [guard bind]. rewrite Hv.
  destruct (int_tlv_intro ty (n mod 2 ^ 64)) as [t' ->]; [rewrite <- Ht; exact Ho|apply Z.mod_pos_bound; lia|]. reflexivity.
Qed.
(* bytes of a number, and how many fewer the receiver sends for it *)
Definition int_bytes (n : Z) : Z := if n <? 2 ^ 8 then 1 else if n <? 2 ^ 16 then 2 else if n <? 2 ^ 24 then 3 else if n <? 2 ^ 32 then 4 else 8.
Definition less (n : Z) : Z := int_bytes n - int_bytes (n mod 2 ^ 64).
Lemma less_nonneg n : 0 <= n -> 0 <= less n.
Proof.
  intros Hn. pose proof (Z.mod_le n (2 ^ 64) Hn ltac:(lia)) as Hle. unfold less, int_bytes.
  repeat match goal with |- context [?a <? ?b] => destruct (a <? b) eqn:? end; lia.
Qed.
Lemma less_pos n : 2 ^ 64 <= n -> n mod 2 ^ 64 < 2 ^ 32 -> 0 < less n.
Proof.
  intros Hn Hm. unfold less, int_bytes.
  repeat match goal with |- context [?a <? ?b] => destruct (a <? b) eqn:? end; lia.
Qed.
Lemma int_shrinks ty n t : int_tlv ty n = Ok t -> exists t', int_tlv ty (n mod 2 ^ 64) = Ok t' /\ zlen (tlv_wire t') = zlen (tlv_wire t) - less n.
Proof.
  intros H. pose proof H as H'. apply int_tlv_ok in H' as ((Ho & _) & Ht & Hn & _).
  destruct (int_tlv_intro ty (n mod 2 ^ 64)) as [t' E]; [rewrite <- Ht; exact Ho|apply Z.mod_pos_bound; lia|]. exists t'. split; [exact E|].
  unfold int_tlv, create_varint in H, E. apply bind_ok in H as (b & B & H). apply bind_ok in E as (b' & B' & E).
  apply tlv_make_ok in H as [_ ->]. apply tlv_make_ok in E as [_ ->].
  apply number_to_array_ok in B as (_ & _ & _ & L). apply number_to_array_ok in B' as (_ & _ & _ & L').
  rewrite !zlen_tlv_wire. unfold tlv_len, tlv_length. cbn [t_val]. fold (int_bytes n) in L. fold (int_bytes (n mod 2 ^ 64)) in L'. unfold less. lia.
Qed.
Lemma make_shrinks ty v v' t d : tlv_make ty v = Ok t -> bytes_ok v' -> zlen v' = zlen v - d -> 0 <= d ->
  exists t', tlv_make ty v' = Ok t' /\ zlen (tlv_wire t') = zlen (tlv_wire t) - d.
Proof.
  intros H B L D. apply tlv_make_ok in H as [(H1 & H2 & _) ->]. unfold tlv_length in H2. cbn [t_type t_val] in *. exists (mkTlv ty v'). split.
  - apply tlv_make_intro. split; [exact H1|]. split; [unfold tlv_length; cbn [t_val]; lia|exact B].
  - rewrite !zlen_tlv_wire. unfold tlv_len, tlv_length. cbn [t_val]. lia.
Qed.

(* what a receiver gets: the key number modulo 2^64 *)
Definition num64 (a : aead) : aead := mkAead (a_keynum a mod 2 ^ 64) (a_nonce a) (a_mode a) (a_kdf a).
Definition ctx64 (c : secctx) : secctx :=
  match c with CAead a => CAead (num64 a) | CRsa a w => CRsa (num64 a) w end.
(* the other numbers fit *)
Definition rest_wf (a : aead) : Prop := u64o (a_mode a) /\ (forall k, a_kdf a = Some k -> kdf_wf k).
Definition crest_wf (c : secctx) : Prop :=
  rest_wf (ctx_aead c) /\ match c with CRsa _ (Some w) => wrapper_wf w | _ => True end.

Lemma wires_bytes l : Forall tlv_ok l -> bytes_ok (wires l).
Proof.
  induction 1 as [|t l T F IH]; [constructor|]. rewrite wires_cons. apply bytes_ok_app. split; [now apply tlv_wire_ok|exact IH].
Qed.
Lemma aead_bytes a w : aead_wire a = Ok w -> bytes_ok w.
Proof. intros H. apply aead_wire_ok in H as (l & L & ->). apply wires_bytes. eapply aead_tlvs_ok, L. Qed.
Lemma aead_shrinks a w : aead_wire a = Ok w -> 0 <= a_keynum a /\
  exists w', aead_wire (num64 a) = Ok w' /\ bytes_ok w' /\ zlen w' = zlen w - less (a_keynum a).
Proof.
  intros H. enough (0 <= a_keynum a /\ exists w', aead_wire (num64 a) = Ok w' /\ zlen w' = zlen w - less (a_keynum a)) as (N & w' & E & L).
  { split; [exact N|]. exists w'. split; [exact E|]. split; [eapply aead_bytes, E|exact L]. }
  revert H. unfold aead_wire. cbn [num64 a_keynum a_nonce a_mode a_kdf]. intros H.
  apply bind_ok in H as (k & K & H). apply bind_ok in H as (n & N & H). apply bind_ok in H as (m & M & H). apply bind_ok in H as (d & D & H). apply Ok_inj in H. subst w.
  destruct (int_shrinks _ _ _ K) as (k' & -> & L). cbn [bind]. rewrite N, M, D. cbn [bind]. split; [apply int_tlv_ok in K; tauto|]. eexists. split; [reflexivity|].
  rewrite !flatten_some, !zlen_app. lia.
Qed.
Lemma wrapper_bytes a w : wrapper_wire a = Ok w -> bytes_ok w.
Proof. intros H. apply wrapper_wire_ok in H as (l & L & ->). apply wires_bytes. eapply wrapper_tlvs_ok, L. Qed.
Lemma ctx_shrinks c t : ctx_tlv c = Ok t -> exists t', ctx_tlv (ctx64 c) = Ok t' /\ zlen (tlv_wire t') = zlen (tlv_wire t) - less (a_keynum (ctx_aead c)).
Proof.
  destruct c as [a|a w]; cbn [ctx_tlv ctx64 ctx_aead]; intros H.
  - apply bind_ok in H as (b & B & H). apply bind_ok in H as (i & I & H). destruct (aead_shrinks _ _ B) as (N & b' & -> & Bo & L). cbn [bind].
    apply less_nonneg in N. destruct (make_shrinks _ _ _ _ _ I Bo L N) as (i' & E & L'). rewrite E. cbn [bind].
    destruct (make_shrinks _ _ (tlv_wire i') _ (less (a_keynum a)) H) as (t' & -> & L2); [|exact L'|exact N|eauto]. apply tlv_wire_ok. apply tlv_make_tlv_ok in E. tauto.
  - apply bind_ok in H as (b & B & H). apply bind_ok in H as (x & X & H). apply bind_ok in H as (i & I & H). destruct (aead_shrinks _ _ B) as (N & b' & -> & Bo & L). cbn [bind].
    apply less_nonneg in N. rewrite X. cbn [bind].
    destruct (make_shrinks _ _ (flatten [Some b'; x]) _ (less (a_keynum a)) I) as (i' & E & L').
    + rewrite flatten_some. apply bytes_ok_app. split; [exact Bo|]. destruct w as [w|]; cbn [optM] in X.
      * apply bind_ok in X as (y & Y & X). apply Ok_inj in X. subst x. rewrite flatten_some. apply bytes_ok_app. split; [eapply wrapper_bytes, Y|constructor].
      * apply Ok_inj in X. subst x. constructor.
    + rewrite !flatten_some, !zlen_app. lia.
    + exact N.
    + rewrite E. cbn [bind]. destruct (make_shrinks _ _ (tlv_wire i') _ (less (a_keynum a)) H) as (t' & -> & L2); [|exact L'|exact N|eauto].
      apply tlv_wire_ok. apply tlv_make_tlv_ok in E. tauto.
Qed.

Lemma aead_wraps a l extra w : rest_wf a -> aead_wire a = Ok w -> aead_tlvs a l ->
  Forall tlv_ok extra -> Forall (fun t => aead_table (t_type t) = None) extra ->
  aead_parse (wires (l ++ extra)) = Ok (num64 a).
Proof.
  intros (W2 & W3) H (l1 & l2 & l3 & l4 & O1 & O2 & O3 & O4 & Hall & ->) Hx Hs.
  unfold aead_parse, auto_value_parse.
  rewrite tlv_foreach_wires by (rewrite Forall_app; auto). rewrite <- !app_assoc, ?foldM_app.
  assert (opt_tlvs (fun _ => int_tlv T_KEYNUM (a_keynum a)) (Some (a_keynum a mod 2 ^ 64)) l1) as O1' by exact O1.
  rewrite (auto_opt aead_table true _ T_KEYNUM AInt _ _ _ [] O1' eq_refl); [| |reflexivity].
  2:{ intros ? ? Y X. injection Y as <-. split; [apply int_tlv_ok in X; tauto|]. apply rmap_intro, int_parse_wraps, X. }
  cbn [bind]. rewrite ?foldM_app.
  rewrite (auto_opt aead_table true _ T_NONCE AOct _ _ _ _ O2 eq_refl); [|oct_fld|look].
  cbn [bind]. rewrite ?foldM_app.
  rewrite (auto_opt aead_table true _ T_AEADMode AInt _ _ _ _ O3 eq_refl);
    [|int_fldb ltac:(fun Y => apply W2; exact Y)|look].
  cbn [bind]. rewrite ?foldM_app.
  rewrite (auto_opt aead_table true _ T_KDF_DATA AKdf _ _ _ _ O4 eq_refl); [| |look].
  2:{ intros k u Hk E. split; [apply kdf_tlv_ok in E; tauto|]. apply rmap_intro, kdf_roundtrip; auto. }
  cbn [bind]. rewrite auto_skip by assumption. cbn [bind]. rewrite ?lookup_app, ?lookup_optfld.
  cbn [Z.eqb Pos.eqb T_KEYNUM T_NONCE T_AEADMode T_KDF_DATA lookup option_map]. rewrite !opt_id. cbn [av_int av_oct].
  assert (num64 a = mkAead (a_keynum a mod 2 ^ 64) (a_nonce a) (av_int (option_map AInt (a_mode a))) (av_kdf (option_map AKdf (a_kdf a)))) as X
    by (destruct a as [? ? [?|] [?|]]; reflexivity).
  destruct (aead_shrinks _ _ H) as (_ & w' & E & _). rewrite <- X, E. reflexivity.
Qed.

Lemma ctx_wraps c t : crest_wf c -> ctx_tlv c = Ok t -> ctx_parse t = Ok (ctx64 (ctx_norm c)).
Proof.
  intros (W & W') H. assert (exists t', ctx_tlv (ctx64 (ctx_norm c)) = Ok t') as (t' & Hn).
  { pose proof H as Hn. rewrite <- ctx_tlv_norm in Hn. destruct (ctx_shrinks _ _ Hn) as (t' & E & _). eauto. }
  pose proof (ctx_tlv_ok _ _ H) as (_ & Ht). unfold ctx_parse. rewrite Ht, Z.eqb_refl. cbn [guard bind].
  destruct c as [a|a w]; cbn [ctx_tlv ctx_aead] in H, W.
  - apply bind_ok in H as (b & E & H). apply bind_ok in H as (i & E0 & H).
    apply tlv_make_tlv_ok in H as (_ & _ & ->). apply tlv_make_tlv_ok in E0 as (Ho & Hi & Hv).
    rewrite <- (app_nil_r (tlv_wire i)), tlv_deserialize_wire by assumption. cbn [bind].
    rewrite Hi. change (T_AEAD_CTX =? T_AEAD_CTX) with true. cbn match.
    destruct (aead_wire_ok _ _ E) as (l & Hl & ->). rewrite Hv, <- (app_nil_r l).
    rewrite (aead_wraps a l [] _ W E Hl) by constructor. cbn [bind].
    cbn [ctx_norm ctx64] in *. rewrite Hn. reflexivity.
  - apply bind_ok in H as (b & E & H). apply bind_ok in H as (x & E0 & H). apply bind_ok in H as (i & E1 & H).
    apply tlv_make_tlv_ok in H as (_ & _ & ->). apply tlv_make_tlv_ok in E1 as (Ho & Hi & Hv).
    rewrite <- (app_nil_r (tlv_wire i)), tlv_deserialize_wire by assumption. cbn [bind].
    rewrite Hi. change (T_RSAOAEP_CTX =? T_AEAD_CTX) with false. change (T_RSAOAEP_CTX =? T_RSAOAEP_CTX) with true. cbn match.
    destruct (aead_wire_ok _ _ E) as (l & Hl & ->). pose proof (aead_tlvs_ok _ _ Hl) as Hlo.
    destruct w as [w|]; cbn [optM] in E0.
    + apply bind_ok in E0 as (y & E0 & X). apply Ok_inj in X. subst x.
      destruct (wrapper_wire_ok _ _ E0) as (l' & Hl' & ->). pose proof (wrapper_tlvs_ok _ _ Hl') as Hlo'.
      rewrite Hv. rewrite !flatten_some. cbn [flatten]. rewrite app_nil_r, <- wires_app.
      rewrite (aead_wraps a l l' _ W E Hl Hlo' (wrapper_aead_skip _ _ Hl')). cbn [bind].
      rewrite (wrapper_roundtrip w l' l _ W' E0 Hl' Hlo (aead_wrapper_skip _ _ Hl)). cbn [bind].
      cbn [ctx_norm option_map ctx64] in *. rewrite Hn. reflexivity.
    + apply Ok_inj in E0. subst x.
      rewrite Hv. rewrite !flatten_some. cbn [flatten]. rewrite app_nil_r. rewrite <- (app_nil_r l).
      rewrite (aead_wraps a l [] _ W E Hl) by constructor. cbn [bind].
      unfold wrapper_parse, auto_value_parse. rewrite tlv_foreach_wires by (rewrite app_nil_r; assumption).
      rewrite app_nil_r, auto_skip by (eapply aead_wrapper_skip; eassumption). cbn [bind].
      cbn [ctx_norm option_map ctx64] in *. rewrite Hn. reflexivity.
Qed.
(* the whole encrypted manifest *)
Lemma man_wraps c ct tag w : crest_wf c -> man_wire (mkMan (Some c) (MEnc ct) (Some tag)) = Ok w ->
  man_deserialize w = Ok (mkMan (Some (ctx64 (ctx_norm c))) (MEnc ct) (Some tag)).
Proof.
  intros W H. apply man_wire_ok in H as (l1 & t & l3 & O1 & E & O3 & Hall & ->). cbn [m_ctx m_node m_tag mnode_tlv] in *.
  destruct O1 as (tc & Ec & ->). destruct O3 as (tt & Et & ->).
  unfold man_deserialize. rewrite tlv_foreach_wires by assumption. cbn [app foldM].
  unfold man_step at 1. pose proof (ctx_tlv_ok _ _ Ec) as (_ & X). rewrite X, Z.eqb_refl. cbn [is_none guard bind].
  rewrite (ctx_wraps c tc W Ec). cbn [rmap bind].
  unfold man_step at 1. pose proof (octet_tlv_ok _ _ _ E) as (_ & X1 & _). rewrite X1.
  change (T_ENCRYPTED_NODE =? T_SECURITY_CTX) with false. change (T_ENCRYPTED_NODE =? T_NODE) with false.
  change (T_ENCRYPTED_NODE =? T_ENCRYPTED_NODE) with true. cbn [is_none guard bind]. rewrite (octet_roundtrip _ _ _ E). cbn [rmap bind].
  unfold man_step at 1. pose proof (octet_tlv_ok _ _ _ Et) as (_ & X2 & _). rewrite X2.
  change (T_AUTH_TAG =? T_SECURITY_CTX) with false. change (T_AUTH_TAG =? T_NODE) with false.
  change (T_AUTH_TAG =? T_ENCRYPTED_NODE) with false. change (T_AUTH_TAG =? T_AUTH_TAG) with true.
  rewrite (octet_roundtrip _ _ _ Et). cbn [rmap bind].
  destruct (ctx_shrinks (ctx_norm c) tc) as (tc' & Ec' & _); [rewrite ctx_tlv_norm; exact Ec|].
  unfold man_wire. cbn [m_ctx m_node m_tag wire_opt mnode_tlv]. rewrite Ec'. cbn [bind]. rewrite E. cbn [bind]. rewrite Et. reflexivity.
Qed.

(* ---------------- Specification ---------------- *)

(* The number that arrives *)
Definition key_number (p : aparams) : Z := ap_num p mod 2 ^ 64.
(* The key that the receiver has under this number does not open what is
   encrypted with these parameters: it is for another cipher; or the cipher
   rejects under it what was sealed under the right one; or the cipher rejects
   other associated data, and the number is so large that the receiver, who
   writes the associated data again, writes fewer bytes for it. *)
Definition useless {P} (q p : aparams) : Prop :=
  let opens iv x aad := pr_open P (ak_alg (ap_key q)) (ak_key (ap_key q)) iv x aad in
  let sealed x aad := exists iv pt, pr_seal P (ak_alg (ap_key p)) (ak_key (ap_key p)) iv pt aad = Ok x in
  ap_num q = key_number p /\ (forall s, ap_salt q = Some s -> 0 <= s < 2 ^ 32) /\
  (ak_alg (ap_key q) <> ak_alg (ap_key p) \/
   (forall x aad, sealed x aad -> forall iv aad', opens iv x aad' = Ok None) \/
   (2 ^ 64 <= ap_num p /\ key_number p < 2 ^ 32 /\
    forall x aad, sealed x aad -> forall iv aad', aad' <> aad -> opens iv x aad' = Ok None)).
(* The receiver cannot open what is encrypted with these parameters: it has no
   key store; or no key under the number, and not the private key for the
   wrapped key, if there is one; or a useless key under the number. *)
Definition locked {P} (ks : option (keystore P)) (p : aparams) (w : option wrapper) : Prop :=
  match ks with
  | None => True
  | Some k =>
    match get_aes_key P k (key_number p) with
    | Ok q => useless (P := P) q p
    | Err _ => forall wr sk, w = Some wr -> get_rsa P k (QKeyId (w_keyid wr)) <> Ok (RPriv sk)
    end
  end.
Definition shut_out {P} (o : opts P) (ks : option (keystore P)) : Prop :=
  match op_enc o with
  | ENone => False
  | EAead p => locked ks p None
  | EOaep i => locked ks (oi_params i) (oi_wrapper i)
  end.
(* the numbers other than the key number fit on the wire, and the wrapped key
   was made as the code makes it *)
Definition sendable {P} (o : opts P) : Prop :=
  match op_enc o with
  | ENone => True
  | EAead p => forall k, ap_kdf p = Some k -> k_alg k < 2 ^ 64
  | EOaep i => (forall k, ap_kdf (oi_params i) = Some k -> k_alg k < 2 ^ 64) /\
      forall wr, oi_wrapper i = Some wr -> exists key seed, wrapper_create P key seed (oi_params i) = Ok wr
  end.
(* The exception.  The root manifest carries the wrapped key, other manifests
   do not: without AES key they raise ValueError. *)
Definition reason {P} (o : opts P) (ks : option (keystore P)) (e : exn) : Prop :=
  match ks with
  | None => e = AttributeError
  | Some k =>
    match op_enc o with
    | ENone => False
    | EAead p => match get_aes_key P k (key_number p) with Ok _ => e = DecryptionError | Err _ => e = KeyNumberNotFoundError end
    | EOaep i =>
      match get_aes_key P k (key_number (oi_params i)) with
      | Ok _ => e = DecryptionError
      | Err _ => e = ValueError \/
          exists wr, oi_wrapper i = Some wr /\ e = KeyIdNotFoundError /\ forall k', get_rsa P k (QKeyId (w_keyid wr)) <> Ok k'
      end
    end
  end.

(* ---------------- Proofs ---------------- *)

Lemma rejected P is_mine p q md c ct tag nd nonce : mode_of_key (ap_key p) = Ok md ->
  encrypt_with_ctx P p nd c = Ok (ct, tag) -> ctx_aead c = mkAead (ap_num p) nonce (Some md) (ap_kdf p) ->
  useless (P := P) q p -> is_mine (ctx64 c) = true ->
  decrypt_manifest_with P is_mine q (mkMan (Some (ctx64 c)) (MEnc ct) (Some tag)) = Err DecryptionError.
Proof.
  intros Hmd Henc Hc (Hn & Hs & Ho) Hi. unfold decrypt_manifest_with. cbn [m_node m_ctx m_tag]. rewrite Hi. cbn [guard bind].
  assert (ctx_aead (ctx64 c) = mkAead (key_number p) nonce (Some md) (ap_kdf p)) as Hc'.
  { destruct c; cbn [ctx64 ctx_aead] in *; rewrite Hc; reflexivity. }
  unfold decrypt_node. rewrite Hc'. cbn [a_keynum a_nonce]. rewrite Hn, Z.eqb_refl. cbn [guard bind].
  apply mode_fits in Hmd. unfold check_mode. rewrite Hc'. cbn [a_mode].
  apply encrypt_ok in Henc as (iv & tn & tc & _ & _ & Htc & Hseal). destruct (ctx_shrinks _ _ Htc) as (tc' & Htc' & Hlen).
  assert (aalg_dec : {ak_alg (ap_key q) = ak_alg (ap_key p)} + {ak_alg (ap_key q) <> ak_alg (ap_key p)}) by decide equality.
  destruct aalg_dec as [Ea|Ea].
  - destruct Ho as [?|Ho]; [contradiction|]. rewrite Ea in *.
    assert (match ak_alg (ap_key p) with
      | GCM => guard ((md =? MODE_GCM_128) || (md =? MODE_GCM_256)) DecryptionError
      | CCM => guard ((md =? MODE_CCM_128) || (md =? MODE_CCM_256)) DecryptionError
      end = Ok tt) as ->.
    { unfold fits_mode in Hmd. destruct Hmd as [(-> & _ & ->)|[(-> & _ & ->)|[(-> & _ & ->)|(-> & _ & ->)]]]; reflexivity. }
    cbn [bind]. assert (exists iv', iv_of q nonce = Ok iv') as (iv' & ->).
    { unfold iv_of. destruct (ap_salt q) as [s|]; [|eauto]. rewrite (to_bytes4_intro s) by auto. cbn [bind]. eauto. }
    cbn [bind]. rewrite Htc'. cbn [bind]. unfold aead_open. rewrite Ea.
    assert (exists iv pt, pr_seal P (ak_alg (ap_key p)) (ak_key (ap_key p)) iv pt (tlv_wire tc) = Ok (ct ++ tag)) as Sealed by eauto.
    destruct Ho as [Ho|(B1 & B2 & Ho)]; rewrite (Ho _ _ Sealed); try reflexivity.
    intros X. apply (f_equal zlen) in X. rewrite Hc in Hlen. cbn [a_keynum] in Hlen. pose proof (less_pos _ B1 B2). lia.
  - clear Ho. assert (match ak_alg (ap_key q) with
      | GCM => guard ((md =? MODE_GCM_128) || (md =? MODE_GCM_256)) DecryptionError
      | CCM => guard ((md =? MODE_CCM_128) || (md =? MODE_CCM_256)) DecryptionError
      end = Err DecryptionError) as ->; [|reflexivity].
    unfold fits_mode in Hmd. destruct Hmd as [(E & _ & ->)|[(E & _ & ->)|[(E & _ & ->)|(E & _ & ->)]]]; rewrite E in Ea; destruct (ak_alg (ap_key q)); try congruence; reflexivity.
Qed.
(* opening a manifest as the first thing fails *)
Lemma shut_decrypt P (o : opts P) ks nd m w : sendable o -> shut_out o ks -> manifest_of_node o nd m -> man_wire m = Ok w ->
  exists m', man_deserialize w = Ok m' /\ forall s, ts_dc s = ts_dc (tst_new P ks) ->
    exists e s', t_decrypt P m' s = (Err e, s') /\ reason o ks e.
Proof.
  unfold sendable, shut_out, manifest_of_node, reason. intros HS HO Hm Hw.
  assert (M : forall p md nonce, (forall k, ap_kdf p = Some k -> k_alg k < 2 ^ 64) -> mode_of_key (ap_key p) = Ok md ->
    rest_wf (mkAead (ap_num p) nonce (Some md) (ap_kdf p))).
  { intros p md nonce K Hmd. split; [|exact K]. cbn [a_mode]. intros z [= <-].
    apply mode_fits in Hmd. change (2 ^ 64) with 18446744073709551616. unfold fits_mode in Hmd. intuition lia. }
  destruct (op_enc o) as [|p|i]; [contradiction| |].
  - destruct Hm as (nonce & Hm). apply aead_create_ok in Hm as (md & ct & tag & Hmd & Henc & -> & _).
    eexists. split; [apply man_wraps; [|exact Hw]|].
    { split; [|exact I]. exact (M p md nonce HS Hmd). }
    intros s Hs. unfold t_decrypt, is_encrypted. cbn [m_node m_ctx negb ctx_norm ctx64]. rewrite Hs. destruct ks as [k|]; [|cbn [tst_new ts_dc]; do 2 eexists; split; reflexivity].
    cbn [locked] in HO. cbn [tst_new ts_dc]. unfold dc_get, dc_init. cbn [ctx_aead num64 a_keynum dc_num dc_create dc_ks dc_oaep].
    change (ap_num p mod 2 ^ 64) with (key_number p) in *. destruct (get_aes_key P k (key_number p)) as [q|e] eqn:G; cbn [bind].
    + unfold dc_decrypt, aead_decrypt_manifest.
      match goal with |- context [decrypt_manifest_with P is_aead_ctx q ?m] =>
        replace (decrypt_manifest_with P is_aead_ctx q m) with (@Err manifest DecryptionError)
          by (symmetry; exact (rejected P is_aead_ctx p q md (CAead (mkAead (ap_num p) nonce (Some md) (ap_kdf p))) ct tag nd nonce Hmd Henc eq_refl HO eq_refl)) end. eauto.
    + unfold get_aes_key in G. destruct (dict_get _ _ _); [discriminate|]. injection G as <-. eauto.
  - destruct HS as [HK HW]. destruct Hm as (inc & nonce & Hm). apply oaep_create_ok in Hm as (md & ct & tag & Hmd & Henc & ->).
    set (p := oi_params i) in *. set (wr := if inc then oi_wrapper i else None) in *.
    assert (wr = None \/ exists x, wr = Some x /\ oi_wrapper i = Some x) as Hwr by (unfold wr; destruct inc; [|now left]; destruct (oi_wrapper i); eauto).
    assert (option_map wrapper_norm wr = wr /\ crest_wf (CRsa (mkAead (ap_num p) nonce (Some md) (ap_kdf p)) wr)) as [Nw Wc].
    { destruct Hwr as [->|(x & -> & Hx)].
      - split; [reflexivity|]. split; [|exact I]. exact (M p md nonce HK Hmd).
      - destruct (HW x Hx) as (key & seed & C). apply wrapper_create_ok in C as (y & _ & _ & X & X' & _). split.
        + cbn [option_map]. unfold wrapper_norm. rewrite X. destruct x. cbn in *. congruence.
        + split; [exact (M p md nonce HK Hmd)|]. intros z Hz. rewrite X' in Hz. injection Hz as <-. reflexivity. }
    eexists. split; [apply man_wraps; [exact Wc|exact Hw]|].
    intros s Hs. unfold t_decrypt, is_encrypted. cbn [m_node m_ctx negb ctx_norm ctx64]. rewrite Nw, Hs. destruct ks as [k|]; [|cbn [tst_new ts_dc]; do 2 eexists; split; reflexivity].
    cbn [locked] in HO. cbn [tst_new ts_dc]. unfold dc_get, dc_init. cbn [ctx_aead num64 a_keynum dc_num dc_create dc_ks dc_oaep bind].
    unfold dc_decrypt, oaep_decrypt_manifest. cbn [m_ctx dc_ks dc_oaep dc_num dc_last]. unfold oaep_get_impl. cbn [dict_get]. unfold oimpl_create. cbn [num64 a_keynum].
    change (ap_num p mod 2 ^ 64) with (key_number p) in *. fold (num64 (mkAead (ap_num p) nonce (Some md) (ap_kdf p))).
    destruct (get_aes_key P k (key_number p)) as [q|e] eqn:G.
    + cbn [oi_params].
      match goal with |- context [decrypt_manifest_with P is_rsa_ctx q ?m] =>
        replace (decrypt_manifest_with P is_rsa_ctx q m) with (@Err manifest DecryptionError)
          by (symmetry; exact (rejected P is_rsa_ctx p q md (CRsa (mkAead (ap_num p) nonce (Some md) (ap_kdf p)) wr) ct tag nd nonce Hmd Henc eq_refl HO eq_refl)) end. eauto.
    + unfold unwrap_params. destruct Hwr as [->|(x & -> & Hx)]; cbn [bind]; [eauto 10|].
      destruct (get_rsa P k (QKeyId (w_keyid x))) as [[sk|pk]|e'] eqn:R.
      * exfalso. exact (HO x sk Hx R).
      * cbn [bind has_private guard]. eauto 10.
      * cbn [bind]. pose proof R as R'. unfold get_rsa in R. destruct (dict_get _ _ _); [discriminate|]. injection R as <-. do 2 eexists. split; [reflexivity|].
        right. exists x. split; [exact Hx|]. split; [reflexivity|]. intros k' K. congruence.
Qed.

(* A traversal that starts at any manifest of a build, whatever it is read
   from, stops there and has written nothing. *)
Theorem C74_nothing : forall P clog rnd now (o : opts P) nc data s r s' ks,
  log_ok clog -> op_max o <= 2 ^ 24 -> manifest_tree P clog rnd now o nc data s = (r, s') ->
  sendable o -> shut_out o ks ->
  exists new, ms_out s' = ms_out s ++ new /\ forall p, In p new -> is_data_object p \/
    forall get nm h q wr fuel, get nm h = Ok q -> copy ks q p ->
      exists e st, traverse P get wr (S fuel) nm h (tst_new P ks) = (Err e, st) /\ reason o ks e /\ ts_out st = [] /\ ts_count st = 1.
Proof.
  intros P clog rnd now o nc data s r s' ks HL HM H HS HO. destruct (C37_no_dangling P clog rnd now o nc data s r s' HL HM H) as (new & E & D).
  exists new. split; [exact E|]. intros p Hp. apply in_split in Hp as (pre & post & Hp). destruct (D pre p post Hp) as [X|(nd & (c & m & w & Hc & Ht & Hpl & Hw & Hm) & _)]; [now left|right].
  destruct (shut_decrypt P o ks nd m w HS HO Hm Hw) as (m' & Hd & Hx). intros get nm h q wr fuel Hq (c0 & c' & Hc0 & Hc' & Ht' & Hp' & Hv).
  rewrite Hc in Hc0. injection Hc0 as <-. unfold traverse, sbind at 1, lift. rewrite Hq. unfold sbind at 1, validate, sbind at 1, sget, lift.
  assert (ts_keystore P (tst_new P ks) = ks) as Ek by (destruct ks; reflexivity). rewrite Ek, Hv. cbn [preorder]. unfold sbind at 1, smod.
  set (s0 := mkTs (ts_count (tst_new P ks) + 1) (ts_out (tst_new P ks)) (ts_dc (tst_new P ks))).
  rewrite Hc', Ht', Ht. change (PT_MANIFEST =? PT_MANIFEST) with true. cbv beta iota. unfold sbind at 1, lift, man_from_content.
  rewrite Ht', Ht, Hp', Hpl. change (PT_MANIFEST =? PT_MANIFEST) with true. cbn [guard bind]. rewrite Hd.
  destruct (Hx s0 eq_refl) as (e & s1 & Hdec & Hr). unfold sbind at 1. rewrite Hdec. exists e, s1. split; [reflexivity|]. split; [exact Hr|].
  apply t_decrypt_sound in Hdec as (C1 & O1 & _). rewrite C1, O1. split; reflexivity.
Qed.
Print Assumptions C74_nothing.

(* ---------------- key numbers that do not fit ---------------- *)

(* manifest_writer takes any number for --key-num.  If it does not fit in 64
   bits, a reader with the same key options finds no key. *)
Theorem C74_large_number_refuted : forall P hash fr clog rnd now (a : wargs P) data s r s' o dopt b n c ks m,
  log_ok clog -> wa_max a <= 2 ^ 24 ->
  ca_enc (wa_c a) = Some b -> ca_wrap (wa_c a) = None -> ca_num (wa_c a) = Some n -> 2 ^ 64 <= n ->
  ca_enc c <> None -> ca_num c = Some m -> m <> n mod 2 ^ 64 -> create_keystore P c = Ok ks ->
  writer_setup P hash fr now a = Ok (o, dopt) -> writer_run P hash fr clog rnd now a data s = (r, s') ->
  exists new, ms_out s' = ms_out s ++ new /\ forall p, In p new -> is_data_object p \/
    forall get nm h q wr fuel, get nm h = Ok q -> copy (Some ks) q p ->
      exists st, traverse P get wr (S fuel) nm h (tst_new P (Some ks)) = (Err KeyNumberNotFoundError, st) /\ ts_out st = [] /\ ts_count st = 1.
Proof.
  intros P hash fr clog rnd now a data s r s' o dopt b n c ks m HL HM Hb Hw Hn Hbig Hc Hm Hd HK SU R.
  pose proof (setup_inv _ _ _ _ _ _ _ SU) as I. cbv zeta in I. destruct I as (_ & _ & _ & _ & _ & _ & _ & _ & _ & _ & E & A3 & _).
  unfold writer_run in R. rewrite SU in R. cbn [lift sbind] in R.
  unfold cli_encryptor in E. apply bind_ok in E as (k & K & E). apply cli_aes_key_ok in K.
  assert (default_num P hash (wa_c a) = wa_c a) as D by (unfold default_num; now rewrite Hb, Hn). rewrite D in *. rewrite Hb in K. subst k. rewrite Hw, Hn in E.
  apply bind_ok in E as (p & Hp & E). apply Ok_inj in E. apply cli_params_ok in Hp as (_ & Hpn & _ & _ & Hkdf).
  assert (get_aes_key P ks (key_number p) = Err KeyNumberNotFoundError) as G.
  { unfold create_keystore in HK. apply bind_ok in HK as (s1 & E1 & HK). apply bind_ok in HK as (s2 & E2 & HK). apply add_aes in E2, HK.
    unfold cli_aes_store in E1. unfold get_aes_key. rewrite HK, E2. apply bind_ok in E1 as (k & K & E1). apply cli_aes_key_ok in K.
    destruct (ca_enc c) as [b'|]; [|contradiction]. subst k. rewrite Hm in E1. apply bind_ok in E1 as (q & Q & E1). apply Ok_inj in E1. subst s1.
    apply cli_params_ok in Q as (_ & Q & _). unfold add_aes_key, key_number. cbn [ks_aes ks_empty dict_set dict_get]. rewrite Q, Hpn.
    destruct (m =? n mod 2 ^ 64) eqn:X; [apply Z.eqb_eq in X; contradiction|]. reflexivity. }
  destruct (C74_nothing P clog rnd now o 1 data s r s' (Some ks)) as (new & E' & F); auto.
  - lia.
  - unfold sendable. rewrite <- E. exact Hkdf.
  - unfold shut_out. rewrite <- E. unfold locked. rewrite G. discriminate.
  - exists new. split; [exact E'|]. intros p' Hp'. destruct (F p' Hp') as [X|X]; [now left|right]. intros get nm h q wr fuel Hq Hcp.
    destruct (X get nm h q wr fuel Hq Hcp) as (e & st & T & Re & Ho & Hcn). unfold reason in Re. rewrite <- E, G in Re. subst e. eauto.
Qed.
(* If moreover the number that arrives is less than 2^32 and the cipher rejects
   other associated data, the key is of no use under any number. *)
Theorem C74_lost_refuted : forall P hash fr clog rnd now (a : wargs P) data s r s' o dopt b n c ks,
  log_ok clog -> wa_max a <= 2 ^ 24 ->
  (forall alg key iv pt aad x, pr_seal P alg key iv pt aad = Ok x -> forall iv' aad', aad' <> aad -> pr_open P alg key iv' x aad' = Ok None) ->
  ca_enc (wa_c a) = Some b -> ca_wrap (wa_c a) = None -> ca_num (wa_c a) = Some n -> 2 ^ 64 <= n -> n mod 2 ^ 64 < 2 ^ 32 ->
  ca_enc c = Some b -> create_keystore P c = Ok ks ->
  writer_setup P hash fr now a = Ok (o, dopt) -> writer_run P hash fr clog rnd now a data s = (r, s') ->
  exists new, ms_out s' = ms_out s ++ new /\ forall p, In p new -> is_data_object p \/
    forall get nm h q wr fuel, get nm h = Ok q -> copy (Some ks) q p ->
      exists e st, traverse P get wr (S fuel) nm h (tst_new P (Some ks)) = (Err e, st) /\ ts_out st = [] /\ ts_count st = 1 /\
        (e = KeyNumberNotFoundError \/ e = DecryptionError).
Proof.
  intros P hash fr clog rnd now a data s r s' o dopt b n c ks HL HM HB Hb Hw Hn Hbig Hsm Hc HK SU R.
  pose proof (setup_inv _ _ _ _ _ _ _ SU) as I. cbv zeta in I. destruct I as (_ & _ & _ & _ & _ & _ & _ & _ & _ & _ & E & A3 & _).
  unfold writer_run in R. rewrite SU in R. cbn [lift sbind] in R.
  unfold cli_encryptor in E. apply bind_ok in E as (k & K & E). apply cli_aes_key_ok in K.
  assert (default_num P hash (wa_c a) = wa_c a) as D by (unfold default_num; now rewrite Hb, Hn). rewrite D in *. rewrite Hb in K. subst k. rewrite Hw, Hn in E.
  apply bind_ok in E as (p & Hp & E). apply Ok_inj in E. apply cli_params_ok in Hp as (Hpk & Hpn & _ & _ & Hkdf).
  assert (forall q, get_aes_key P ks (key_number p) = Ok q -> useless (P := P) q p) as G.
  { intros q. unfold create_keystore in HK. apply bind_ok in HK as (s1 & E1 & HK). apply bind_ok in HK as (s2 & E2 & HK). apply add_aes in E2, HK.
    unfold cli_aes_store in E1. unfold get_aes_key. rewrite HK, E2. apply bind_ok in E1 as (k & K & E1). apply cli_aes_key_ok in K.
    rewrite Hc in K. subst k. destruct (ca_num c) as [m|]; [|apply bind_ok in E1 as (? & _ & E1); discriminate].
    apply bind_ok in E1 as (q' & Q & E1). apply Ok_inj in E1. subst s1.
    pose proof Q as Q'. apply cli_params_ok in Q as (Q1 & Q2 & Q3 & _). unfold add_aes_key, key_number. cbn [ks_aes ks_empty dict_set dict_get]. rewrite Q2, Hpn.
    destruct (m =? n mod 2 ^ 64) eqn:X; [|discriminate]. apply Z.eqb_eq in X. intros [= ->]. unfold useless. cbv zeta. split; [unfold key_number; now rewrite Q2, Hpn|]. split.
    - intros z Hz. unfold cli_params in Q'. apply bind_ok in Q' as (d & _ & Q'). unfold ap_make in Q'. apply bind_ok in Q' as (? & _ & Q').
      apply bind_ok in Q' as (y & Y & Q'). cbn [ap_salt] in Y. rewrite Q3 in Hz. rewrite Hz in Y. cbn [optM] in Y. apply bind_ok in Y as (v & V & _). apply to_bytes4_ok in V. tauto.
    - destruct (ca_mode c) eqn:Mc, (ca_mode (wa_c a)) eqn:Ma; try (left; rewrite Q1, Hpk; discriminate); right; right;
        (split; [lia|]; split; [unfold key_number; now rewrite Hpn|]; intros x aad (iv & pt & S) iv' aad' N; rewrite Q1; rewrite Hpk in S; eapply HB; eassumption). }
  destruct (C74_nothing P clog rnd now o 1 data s r s' (Some ks)) as (new & E' & F); auto.
  - lia.
  - unfold sendable. rewrite <- E. exact Hkdf.
  - unfold shut_out. rewrite <- E. unfold locked. destruct (get_aes_key P ks (key_number p)) as [q|] eqn:X; [auto|discriminate].
  - exists new. split; [exact E'|]. intros p' Hp'. destruct (F p' Hp') as [X|X]; [now left|right]. intros get nm h q wr fuel Hq Hcp.
    destruct (X get nm h q wr fuel Hq Hcp) as (e & st & T & Re & Ho & Hcn). unfold reason in Re. rewrite <- E in Re.
    exists e, st. repeat split; auto. destruct (get_aes_key P ks (key_number p)); auto.
Qed.
Print Assumptions C74_large_number_refuted.
Print Assumptions C74_lost_refuted.

(* A cipher that seals the key and the associated data into its output, after a
   prefix-free code, and opens nothing else. *)
Fixpoint coded (l : bytes) : bytes := match l with [] => [0] | b :: l' => 1 :: b :: coded l' end.
Lemma coded_prefix l : forall l' r r', coded l ++ r = coded l' ++ r' -> l = l' /\ r = r'.
Proof.
  induction l as [|b l IH]; intros [|b' l'] r r'; cbn [coded app]; intros E.
  - injection E as E. auto.
  - injection E as E. discriminate E.
  - injection E as E. discriminate E.
  - injection E as Eb E. apply IH in E as [-> ->]. subst. auto.
Qed.
Fixpoint uncoded (l : bytes) : option (bytes * bytes) :=
  match l with
  | 0 :: r => Some ([], r)
  | 1 :: b :: l' => match uncoded l' with Some (x, r) => Some (b :: x, r) | None => None end
  | _ => None
  end.
Lemma uncoded_coded l r : uncoded (coded l ++ r) = Some (l, r).
Proof. induction l as [|b l IH]; cbn [coded app uncoded]; [reflexivity|]. now rewrite IH. Qed.
Definition strict : prims := mkPrims (pr_sha toy) (pr_crc toy) Z Z (pr_pub toy) (pr_der toy) (pr_bits toy) (pr_sign toy) (pr_verify toy)
  (pr_oaep_enc toy) (pr_oaep_dec toy)
  (fun a k iv pt aad => Ok (coded (k ++ aad) ++ coded aad ++ pt))
  (fun a k iv x aad => match uncoded x with
     | Some (h, x') => match uncoded x' with
        | Some (h', pt) => if beqb h (k ++ aad) && beqb h' aad then Ok (Some pt) else Ok None
        | None => Ok None end
     | None => Ok None end).
Lemma strict_correct : aead_correct strict.
Proof.
  intros a k iv pt aad c H. cbn [pr_seal pr_open strict] in *. apply Ok_inj in H. subst c.
  rewrite !uncoded_coded, !beqb_refl. reflexivity.
Qed.
Lemma strict_binds : forall alg key iv pt aad x, pr_seal strict alg key iv pt aad = Ok x ->
  forall iv' aad', aad' <> aad -> pr_open strict alg key iv' x aad' = Ok None.
Proof.
  intros alg key iv pt aad x H iv' aad' N. cbn [pr_seal pr_open strict] in *. apply Ok_inj in H. subst x.
  rewrite !uncoded_coded. destruct (beqb aad aad') eqn:E; [|now rewrite andb_false_r]. apply beqb_spec in E. congruence.
Qed.
Lemma strict_other_key : forall alg key key' iv pt aad x, key <> key' -> pr_seal strict alg key iv pt aad = Ok x ->
  forall iv' aad', pr_open strict alg key' iv' x aad' = Ok None.
Proof.
  intros alg key key' iv pt aad x N H iv' aad'. cbn [pr_seal pr_open strict] in *. apply Ok_inj in H. subst x.
  rewrite !uncoded_coded. destruct (beqb aad aad') eqn:E; [|now rewrite andb_false_r]. apply beqb_spec in E. subst aad'.
  destruct (beqb (key ++ aad) (key' ++ aad)) eqn:E; [|reflexivity]. apply beqb_spec in E. apply app_inv_tail in E. contradiction.
Qed.

(* Readers without keystore, without key, with the public half of the wrapping
   key only; a cipher other than the sender's and another key under the same
   number. *)
Definition ex_empty : keystore toy := mkKS toy [] [] [].
Definition ex_public : keystore toy := mkKS toy [] [(mkHash T_SHA_256 (repeat 8 32), RPub (P := toy) 7)] [].
Definition ex_ccm : keystore toy := mkKS toy [] [ex_rsa] [(5, mkAP (mkAK CCM (repeat 1 16)) 5 None None None)].
Definition ex_big : Z := 2 ^ 64 + 5.
Definition ex_cbig n : cargs toy := mkCA toy (Some (RPriv (P := toy) 7)) None (Some (repeat 1 16)) GCM (Some n) None None None None.
Definition ex_head {A B C D E F} (x : A * B * C * D * E * F) : A * B * C := fst (fst (fst x)).
Definition can_unwrap P (k : keystore P) p wr : bool :=
  match get_aes_key P k (key_number p), get_rsa P k (QKeyId (w_keyid wr)) with Err _, Ok (RPriv _) | Ok _, _ => true | _, _ => false end.
Lemma lock P (k : keystore P) p wr : can_unwrap P k p wr = false -> locked (Some k) p (Some wr).
Proof.
  unfold can_unwrap, locked. destruct (get_aes_key P k (key_number p)); [discriminate|]. intros E wr' sk [= <-] X. rewrite X in E. discriminate.
Qed.
Example C74_ex :
  (forall ty, sendable (ex_secret ty 400) /\ sendable (ex_wrapped ty 500) /\
    shut_out (ex_secret ty 400) None /\ shut_out (ex_secret ty 400) (Some ex_store2) /\ shut_out (ex_secret ty 400) (Some ex_ccm) /\
    shut_out (ex_wrapped ty 500) None /\ shut_out (ex_wrapped ty 500) (Some ex_empty) /\ shut_out (ex_wrapped ty 500) (Some ex_public)) /\
  ex_read (ex_secret Hashed 400) None (ex_bytes 500) = (Some AttributeError, false, 1, true) /\
  ex_read (ex_secret Hashed 400) (Some ex_store2) (ex_bytes 500) = (Some KeyNumberNotFoundError, false, 1, true) /\
  ex_read (ex_secret Hashed 400) (Some ex_ccm) (ex_bytes 500) = (Some DecryptionError, false, 1, true) /\
  ex_read (ex_wrapped Hashed 500) None (ex_bytes 500) = (Some AttributeError, false, 1, true) /\
  ex_read (ex_wrapped Hashed 500) (Some ex_public) (ex_bytes 500) = (Some ValueError, false, 1, true).
Proof.
  split; [|do 4 (split; [vm_compute; reflexivity|]); vm_compute; reflexivity]. intros ty.
  assert (wrapper_create toy (RPub (P := toy) 7) [] ex_ap2 = Ok ex_wr) as W by (vm_compute; reflexivity).
  split; [intros k X; discriminate X|]. split.
  { split; [intros k X; discriminate X|]. intros wr X. change (Some ex_wr = Some wr) in X. assert (wr = ex_wr) as -> by congruence. eauto. }
  split; [exact I|]. split; [intros wr sk X; discriminate X|]. split.
  { split; [reflexivity|]. split; [intros z X; discriminate X|]. left. discriminate. }
  split; [exact I|]. split; (apply lock; vm_compute; reflexivity).
Qed.
(* another key under the number *)
Example C74_wrong_key_ex : let p k := mkAP (mkAK GCM (repeat k 16)) 5 None None None in
  aead_correct strict /\ useless (P := strict) (p 2) (p 1) /\ locked (Some (mkKS strict [] [] [(5, p 2)])) (p 1) None.
Proof.
  cbv zeta. split; [exact strict_correct|].
  assert (useless (P := strict) (mkAP (mkAK GCM (repeat 2 16)) 5 None None None) (mkAP (mkAK GCM (repeat 1 16)) 5 None None None)) as U.
  { split; [reflexivity|]. split; [intros s X; discriminate X|]. right. left. intros x aad (iv & pt & X) iv' aad'.
    eapply strict_other_key; [|exact X]. discriminate. }
  split; exact U.
Qed.
(* writer and reader with --key-num 18446744073709551621; the reader with 5 *)
Example C74_number_ex :
  (forall alg key iv pt aad x, pr_seal strict alg key iv pt aad = Ok x -> forall iv' aad', aad' <> aad -> pr_open strict alg key iv' x aad' = Ok None) /\
  2 ^ 64 <= ex_big /\ ex_big mod 2 ^ 64 = 5 /\
  match create_keystore toy (ex_cbig ex_big), create_keystore toy (ex_cbig 5) with Ok _, Ok _ => True | _, _ => False end /\
  ex_head (ex_cli (ex_wargs Hashed 400 (ex_cbig ex_big)) (ex_cbig ex_big) 12 (ex_bytes 500)) = (Some KeyNumberNotFoundError, false, 1) /\
  ex_head (ex_cli (ex_wargs Hashed 400 (ex_cbig ex_big)) (ex_cbig 5) 12 (ex_bytes 500)) = (Some DecryptionError, false, 1) /\
  ex_head (ex_cli (ex_wargs Hashed 400 (ex_cbig 5)) (ex_cbig 5) 12 (ex_bytes 500)) = (None, true, 4).
Proof.
  split; [exact strict_binds|]. split; [vm_compute; discriminate|]. split; [reflexivity|]. split; [vm_compute; exact I|].
  split; [vm_compute; reflexivity|]. split; vm_compute; reflexivity.
Qed.
