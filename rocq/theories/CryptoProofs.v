(* Lemmas about the model of Crypto.v. *)
From Coq Require Import ZArith List Bool Lia ZifyBool.
From Verif Require Import Py Tlv Float Core TlvProofs FloatProofs CoreProofs Spec PropsTlv PropsCore
  Flic WireSpec FlicProofs PropsFlic PropsWire Crypto.
Import ListNotations.
Open Scope Z_scope.
Ltac Zify.zify_post_hook ::= Z.div_mod_to_equations.
Opaque tlv_make tlv_wire tlv_deserialize.

Lemma uint32_ok n b : uint32_to_array n = Ok b -> 0 <= n < 2 ^ 32 /\ b = be_bytes 4 n /\ bytes_ok b.
Proof.
  intros H. destruct (C05_uint32 n) as [A B].
  assert (Hn : 0 <= n < 2 ^ 32).
  { destruct (Z_lt_dec n 0) as [L|L]; [rewrite B in H by lia; discriminate|].
    destruct (Z_lt_dec n (2^32)) as [L2|L2]; [lia|]. rewrite B in H by lia. discriminate. }
  split; [exact Hn|]. change (2^32) with 4294967296 in Hn. unfold uint32_to_array in H.
  apply array_B_ok in H as [Hb H]. split; [|subst b; exact Hb]. subst b. unfold be_bytes.
  to_div. cbn [Z.of_nat Pos.of_succ_nat Pos.succ]. change (256 ^ 3) with 16777216. change (256 ^ 2) with 65536.
  change (256 ^ 1) with 256. change (256 ^ 0) with 1.
  repeat (f_equal; try lia).
Qed.
Lemma uint32_intro n : 0 <= n < 2 ^ 32 -> uint32_to_array n = Ok (be_bytes 4 n).
Proof.
  intros Hn. destruct (C05_uint32 n) as [A _]. destruct (A Hn) as (a & H & _).
  rewrite H. apply uint32_ok in H as (_ & -> & _). reflexivity.
Qed.
Lemma be_bytes_length k n : length (be_bytes k n) = k.
Proof. induction k; cbn [be_bytes length]; [|rewrite IHk]; reflexivity. Qed.
Lemma zlen_be_bytes k n : zlen (be_bytes k n) = Z.of_nat k.
Proof. unfold zlen. rewrite be_bytes_length. reflexivity. Qed.
Lemma to_bytes4_ok n b : to_bytes4 n = Ok b -> 0 <= n < 2 ^ 32 /\ b = be_bytes 4 n.
Proof.
  unfold to_bytes4. intros H. destruct ((0 <=? n) && (n <? 2 ^ 32)) eqn:E; [|discriminate].
  apply Ok_inj in H. change (2^32) with 4294967296 in *. split; [lia|]. subst b. unfold be_bytes.
  cbn [Z.of_nat Pos.of_succ_nat Pos.succ]. change (256 ^ 3) with 16777216. change (256 ^ 2) with 65536.
  change (256 ^ 1) with 256. change (256 ^ 0) with 1.
  change (2^24) with 16777216. change (2 ^ 16) with 65536. change (2^8) with 256.
  repeat (f_equal; try lia).
Qed.
Lemma to_bytes4_intro n : 0 <= n < 2 ^ 32 -> to_bytes4 n = Ok (be_bytes 4 n).
Proof.
  intros H. destruct (to_bytes4 n) as [b|e] eqn:E.
  - apply to_bytes4_ok in E as [_ ->]. reflexivity.
  - unfold to_bytes4 in E. replace ((0 <=? n) && (n <? 2 ^ 32)) with true in E by lia. discriminate.
Qed.
Lemma be_bytes4_inj a b : 0 <= a < 2 ^ 32 -> 0 <= b < 2 ^ 32 -> be_bytes 4 a = be_bytes 4 b -> a = b.
Proof.
  intros Ha Hb H. unfold be_bytes in H. cbn [Z.of_nat Pos.of_succ_nat Pos.succ] in H.
  change (256 ^ 3) with 16777216 in H. change (256 ^ 2) with 65536 in H.
  change (256 ^ 1) with 256 in H. change (256 ^ 0) with 1 in H. change (2^32) with 4294967296 in *.
  injection H as H1 H2 H3 H4. lia.
Qed.
Lemma array_to_number_uint32 n : 0 <= n < 2 ^ 32 -> array_to_number (be_bytes 4 n) = n.
Proof.
  intros Hn. destruct (C05_uint32 n) as [A _]. destruct (A Hn) as (a & H & _ & Hv).
  apply uint32_ok in H as (_ & -> & Hb). rewrite be_value_spec by exact Hb. exact Hv.
Qed.

(* ---------------- signing ---------------- *)

Lemma body_co c t : co_tlv c = Ok t -> body_wire (BCO c) = Ok (tlv_wire t).
Proof. intros H. cbn [body_wire]. rewrite H. reflexivity. Qed.
Lemma sign_content_ok P s now c p : sign_content P s now c = Ok p ->
  exists a tc ta v, signer_alg P s false None now = Ok a /\ co_tlv c = Ok tc /\ valg_tlv a = Ok ta /\
    signer_sign P s [tlv_wire tc; tlv_wire ta] = Ok v /\
    p_body p = BCO c /\ p_alg p = Some a /\ p_vpl p = Some v /\
    create_signed_content_object c a v = Ok p.
Proof.
  unfold sign_content. intros H. inv_bind H. inv_bind H. inv_bind H. inv_bind H.
  exists a, a0, a1, a2. pose proof H as H'. unfold create_signed_content_object in H.
  inv_bind H. inv_bind H. inv_bind H. inv_bind H. apply Ok_inj in H. subst p.
  cbn [p_body p_alg p_vpl]. repeat split; auto.
Qed.

Lemma hashv_key_eqb_spec a b : hashv_key_eqb a b = true <-> a = b.
Proof.
  unfold hashv_key_eqb. rewrite andb_true_iff, Z.eqb_eq, beqb_spec.
  destruct a, b; cbn. split; [intros [-> ->]; reflexivity|intros [= -> ->]; auto].
Qed.
Lemma valg_crc_wire : exists t, valg_tlv VCrc32c = Ok t /\ tlv_wire t = [0; 3; 0; 4; 0; 2; 0; 0].
Proof. eexists. split; [vm_compute; reflexivity|reflexivity]. Qed.
Lemma vpl_intro b : bytes_ok b -> zlen b < 65536 -> exists t, vpl_tlv b = Ok t.
Proof.
  intros. unfold vpl_tlv. eexists. apply tlv_make_intro. split; cbn [t_type t_val]; [unfold T_VALIDATION_PAYLOAD; lia|split; assumption].
Qed.

(* objects with the same wire image *)
Lemma same_opt_of_norm {A B} (R : A -> A -> Prop) (f : A -> B) a b : (forall x y, f x = f y -> R x y) ->
  option_map f a = option_map f b -> same_opt R a b.
Proof. intros H E. destruct a, b; cbn in *; try discriminate; [|exact I]. injection E as E. auto. Qed.
Lemma same_name_of_norm a b : option_map name_norm a = option_map name_norm b -> same_name a b.
Proof.
  intros E. destruct a as [x|], b as [y|]; cbn in *; try discriminate; [|exact I]. injection E as E.
  change (name_view x = name_view y). rewrite <- (name_norm_view x), <- (name_norm_view y). congruence.
Qed.
Lemma same_link_of_norm a b : link_norm a = link_norm b -> same_link a b.
Proof.
  unfold link_norm. intros E. injection E as E1 E2 E3. split; [apply same_name_of_norm; assumption|auto].
Qed.
Lemma same_ctx_of_norm a b : ctx_norm a = ctx_norm b -> same_ctx a b.
Proof.
  destruct a as [x|x w], b as [y|y v]; cbn; intros E; try discriminate; [congruence|].
  injection E as E1 E2. split; [assumption|]. eapply same_opt_of_norm; [|exact E2].
  intros p q E. unfold wrapper_norm in E. injection E as F1 F2 F3 F4. repeat split; auto.
  eapply same_opt_of_norm; [|exact F2]. apply same_link_of_norm.
Qed.

(* validation algorithms that serialize to the same bytes; signature times
   count in milliseconds modulo 2^64, as on the wire *)
Definition same_alg (a b : valg) : Prop :=
  match a, b with
  | VCrc32c, VCrc32c => True
  | VRsa k _ l t, VRsa k' _ l' t' =>
    k = k' /\ same_opt same_link l l' /\
    exists m m', ts_msec t = Ok m /\ ts_msec t' = Ok m' /\ m mod 2 ^ 64 = m' mod 2 ^ 64
  | _, _ => False
  end.
Lemma valg_tlv_inj a b t : valg_tlv a = Ok t -> valg_tlv b = Ok t -> same_alg a b.
Proof.
  intros Ha Hb. apply valg_tlv_ok in Ha as (_ & _ & i & Hi & Hv & D).
  apply valg_tlv_ok in Hb as (_ & _ & j & Hj & Hw & D').
  assert (i = j) as <- by (apply tlv_wire_inj; auto; congruence).
  destruct a as [|k pk l st], b as [|k' pk' l' st']; cbn [same_alg]; [exact I| | |].
  1: subst i; destruct D' as [X _]; discriminate.
  1: subst i; destruct D as [X _]; discriminate.
  destruct D as (_ & x & l2 & l3 & s & Hx & O2 & O3 & Hs & Hall & E).
  destruct D' as (_ & x' & l2' & l3' & s' & Hx' & O2' & O3' & Hs' & Hall' & E').
  assert (pk = None /\ pk' = None) as [-> ->].
  { split; [destruct pk|destruct pk']; auto; [destruct O2 as (? & X & _)|destruct O2' as (? & X & _)]; discriminate X. }
  cbn in O2, O2'. subst l2 l2'. cbn [app] in *.
  rewrite E in E'. apply wires_inj in E'; [|assumption|assumption]. injection E' as -> E'.
  apply app_inj_tail in E' as [<- <-].
  split. { apply htt_roundtrip in Hx, Hx'. congruence. }
  split.
  - destruct l as [l|], l' as [l'|]; cbn [opt_tlvs] in *.
    + destruct O3 as (u & Hu & ->). destruct O3' as (u' & Hu' & [= <-]). cbn [same_opt].
      apply same_link_of_norm. apply keylink_roundtrip in Hu, Hu'. congruence.
    + destruct O3 as (u & Hu & ->). discriminate.
    + destruct O3' as (u & Hu & ->). discriminate.
    + exact I.
  - apply ts_tlv_ok in Hs as (_ & _ & _ & m & Hm & Em). apply ts_tlv_ok in Hs' as (_ & _ & _ & m' & Hm' & Em').
    exists m, m'. repeat split; auto. congruence.
Qed.

(* ---------------- AEAD ---------------- *)

Lemma ztake_zskip_len {A} n (l : list A) : ztake n l ++ zskip (zlen (ztake n l)) l = l.
Proof.
  unfold ztake, zskip, zlen. rewrite firstn_length, Nat2Z.id.
  destruct (Nat.le_ge_cases (Z.to_nat n) (length l)) as [H|H].
  - rewrite Nat.min_l by assumption. apply firstn_skipn.
  - rewrite Nat.min_r by assumption. rewrite firstn_all2 by assumption. rewrite skipn_all. apply app_nil_r.
Qed.
Lemma aead_seal_ok P k iv pt aad ct tag : aead_seal P k iv pt aad = Ok (ct, tag) ->
  pr_seal P (ak_alg k) (ak_key k) iv pt aad = Ok (ct ++ tag) /\ bytes_ok (ct ++ tag).
Proof.
  unfold aead_seal. intros H. inv_bind H. inv_bind H. inv_bind H. injection H as -> ->.
  apply array_B_ok in E0 as [B0 ->]. apply array_B_ok in E1 as [B1 ->].
  rewrite bytes_ok_app. rewrite ztake_zskip_len. auto.
Qed.
Lemma encrypt_ok P p n c ct tag : encrypt_with_ctx P p n c = Ok (ct, tag) ->
  exists iv tn tc, iv_of p (a_nonce (ctx_aead c)) = Ok iv /\ node_tlv n = Ok tn /\ ctx_tlv c = Ok tc /\
    pr_seal P (ak_alg (ap_key p)) (ak_key (ap_key p)) iv (t_val tn) (tlv_wire tc) = Ok (ct ++ tag).
Proof.
  unfold encrypt_with_ctx. intros H. inv_bind H. inv_bind H. inv_bind H. inv_bind H. destruct a2 as [ct0 tag0].
  inv_bind H. inv_bind H. injection H as -> ->. apply aead_seal_ok in E2 as [E2 _]. eauto 10.
Qed.
Lemma check_mode_ok p c md : mode_of_key (ap_key p) = Ok md -> a_mode (ctx_aead c) = Some md ->
  check_mode p c = Ok tt.
Proof.
  unfold mode_of_key, check_mode. intros H ->. destruct (ak_alg (ap_key p));
    destruct (ak_bits (ap_key p) =? 128); try (apply Ok_inj in H; subst md; reflexivity);
    destruct (ak_bits (ap_key p) =? 256); try discriminate; apply Ok_inj in H; subst md; reflexivity.
Qed.
(* decryption undoes encryption; [c'] may be the context as re-read from the
   wire and [p'] the parameters recovered by unwrapping *)
Lemma encrypt_decrypt P p p' n c c' md ct tag :
  (forall iv pt aad x, pr_seal P (ak_alg (ap_key p)) (ak_key (ap_key p)) iv pt aad = Ok x ->
     pr_open P (ak_alg (ap_key p)) (ak_key (ap_key p)) iv x aad = Ok (Some pt)) ->
  node_wf n -> mode_of_key (ap_key p) = Ok md ->
  ap_key p' = ap_key p -> ap_num p' = ap_num p -> ap_salt p' = ap_salt p ->
  ctx_aead c' = ctx_aead c -> ctx_tlv c' = ctx_tlv c ->
  a_keynum (ctx_aead c) = ap_num p -> a_mode (ctx_aead c) = Some md ->
  encrypt_with_ctx P p n c = Ok (ct, tag) -> decrypt_node P p' c' ct tag = Ok (node_norm n).
Proof.
  intros Hc Hn Hm K1 K2 K3 A1 A2 Hk Hmd H. apply encrypt_ok in H as (iv & tn & tc & Hiv & Htn & Htc & Hs).
  unfold decrypt_node. rewrite A1, A2, Hk, K2, Z.eqb_refl. cbn [guard bind].
  rewrite (check_mode_ok p' c' md) by congruence. cbn [bind].
  assert (iv_of p' (a_nonce (ctx_aead c)) = Ok iv) as -> by (unfold iv_of in *; rewrite K3; exact Hiv).
  rewrite Htc. cbn [bind]. unfold aead_open. rewrite K1, (Hc _ _ _ _ Hs). cbn [bind].
  pose proof (node_tlv_ok _ _ Htn) as (Ho & Ht & _). rewrite array_B_intro by apply Ho. cbn [bind].
  assert (E : mkTlv T_NODE (t_val tn) = tn) by (destruct tn; cbn in *; congruence).
  rewrite tlv_make_intro by (rewrite E; exact Ho). cbn [bind]. rewrite E. apply node_roundtrip; assumption.
Qed.
Lemma node_norm_man n t : node_tlv n = Ok t -> exists w, man_wire (mkMan None (MNode (node_norm n)) None) = Ok w.
Proof.
  intros H. destruct (unpad_tlv _ _ H) as (t' & Hn). rewrite <- node_norm_unpad in Hn.
  unfold man_wire. cbn [m_ctx m_node m_tag wire_opt bind mnode_tlv]. rewrite Hn. cbn [bind]. eauto.
Qed.

Lemma app_inj_len {A} (a b x y : list A) : length a = length b -> a ++ x = b ++ y -> a = b /\ x = y.
Proof.
  revert b. induction a as [|h a IH]; intros [|k b] H E; try discriminate; [auto|].
  injection E as -> E. injection H as H. destruct (IH b H E) as [-> ->]. auto.
Qed.

(* ---------------- key wrapping ---------------- *)

(* the KDF info that enters the label *)
Definition kdf_info (k : option kdf) : option bytes :=
  match k with Some k => k_info k | None => None end.
Lemma wrap_label_ok keynum mode k keyid hashalg l : wrap_label keynum mode k keyid hashalg = Ok l ->
  exists m tk tm lk ti th, mode = Some m /\ (forall x, k = Some x -> k_info x <> None) /\
    int_tlv T_KEYNUM keynum = Ok tk /\ int_tlv T_AEADMode m = Ok tm /\
    opt_tlvs (octet_tlv T_KDF_INFO) (kdf_info k) lk /\ htt_tlv T_KEYID keyid = Ok ti /\
    int_tlv T_HASH_ALG hashalg = Ok th /\ Forall tlv_ok ([tk; tm] ++ lk ++ [ti; th]) /\
    l = label_prefix ++ wires ([tk; tm] ++ lk ++ [ti; th]).
Proof.
  unfold wrap_label. intros H. inv_bind H. inv_bind H. destruct mode as [m|]; [|discriminate].
  inv_bind H. inv_bind H. inv_bind H. apply Ok_inj in H. subst l.
  assert (exists lk, (forall x, k = Some x -> k_info x <> None) /\
    opt_tlvs (octet_tlv T_KDF_INFO) (kdf_info k) lk /\ Forall tlv_ok lk /\ a = wires lk) as (lk & K1 & K2 & K3 & ->).
  { destruct k as [[ka [i|]]|]; cbn [k_info kdf_info] in *; [|discriminate|].
    - inv_bind E. apply Ok_inj in E. subst a. exists [a4]. split; [intros x [= <-]; discriminate|].
      split; [cbn [opt_tlvs]; eauto|]. split; [constructor; [eauto|constructor]|rewrite wires_one; reflexivity].
    - apply Ok_inj in E. subst a. exists []. split; [discriminate|]. split; [reflexivity|]. split; [constructor|reflexivity]. }
  exists m, a0, a1, lk, a2, a3. repeat (split; [assumption || reflexivity|]). split.
  - rewrite !Forall_app. apply htt_tlv_ok in E2 as [E2 _]. split; [|split; [assumption|]]; constructor; eauto.
  - rewrite !wires_app, !wires_cons. cbn [app]. rewrite !app_nil_r, <- !app_assoc. reflexivity.
Qed.
Lemma int_inj ty a b t : a < 2 ^ 64 -> b < 2 ^ 64 -> int_tlv ty a = Ok t -> int_tlv ty b = Ok t -> a = b.
Proof.
  intros Ha Hb Ea Eb. pose proof (int_tlv_ok _ _ _ Ea). pose proof (int_tlv_ok _ _ _ Eb).
  apply int_roundtrip in Ea; [|lia]. apply int_roundtrip in Eb; [|lia]. congruence.
Qed.
