(* C60: decryption accepts only what the cipher authenticates.
   C61: which packets of a build are encrypted and which are signed. *)
From Coq Require Import ZArith List Bool Lia ZifyBool Permutation.
From Verif Require Import Py Tlv Float Core TlvProofs CoreProofs PropsCore Flic WireSpec FlicProofs PropsFlic PropsWire Crypto CryptoProofs
  PropsCrypto Optimizer OptimizerProofs Tree TreeSpec TreeProofs TreeFacts PropsOptimizer PropsTree ChunkProofs SizeProofs
  PropsChunk BuildProofs Store StoreProofs PropsStore Traversal TraversalSpec TraversalProofs EndSpec EndProofs PropsEnd.
Import ListNotations.
Open Scope Z_scope.
Opaque tlv_make tlv_wire tlv_deserialize.

(** * C60: decryption and authenticity *)

(* A manifest decrypts only if the cipher, given salt and nonce as IV and the
   whole security context as associated data, accepts the encrypted node
   followed by the tag; the result is the node encoded in the plaintext. *)
Lemma iv_of_spec p nonce iv : iv_of p nonce = Ok iv -> iv = spec_iv (ap_salt p) nonce.
Proof.
  unfold iv_of, spec_iv. destruct (ap_salt p); intros H; [|congruence].
  inv_bind H. apply Ok_inj in H. apply to_bytes4_ok in E as [_ ->]. auto.
Qed.
Lemma decrypted P is_mine p m m' : decrypt_manifest_with P is_mine p m = Ok m' ->
  exists c ct tag tc pt tn n, m = mkMan (Some c) (MEnc ct) (Some tag) /\ is_mine c = true /\ a_keynum (ctx_aead c) = ap_num p /\
    ctx_tlv c = Ok tc /\
    pr_open P (ak_alg (ap_key p)) (ak_key (ap_key p)) (spec_iv (ap_salt p) (a_nonce (ctx_aead c))) (ct ++ tag) (tlv_wire tc) = Ok (Some pt) /\
    tlv_make T_NODE pt = Ok tn /\ node_parse tn = Ok n /\ m' = mkMan None (MNode n) None.
Proof.
  unfold decrypt_manifest_with. destruct m as [c nd tag]. cbn [m_node m_ctx m_tag]. destruct nd as [|ct]; [discriminate|].
  destruct c as [c|]; [|discriminate]. intros H. inv_bind H. destruct tag as [tag|]; [|discriminate]. inv_bind H. rename a0 into n. inv_bind H.
  apply Ok_inj in H. subst m'. unfold decrypt_node in E0. inv_bind E0. inv_bind E0. inv_bind E0. inv_bind E0. inv_bind E0. inv_bind E0.
  unfold aead_open in E6. inv_bind E6. destruct a7 as [pt|]; [|discriminate]. apply array_B_ok in E6 as [_ ->].
  apply iv_of_spec in E4. subst. exists c, ct, tag. do 4 eexists. split; [reflexivity|].
  apply guard_ok in E, E2. split; [exact E|]. split; [lia|]. split; [exact E5|]. split; [exact E8|]. split; [exact E7|]. split; [exact E0|reflexivity].
Qed.
Theorem C60_decrypts_only_authentic : forall P is_mine p m m', (forall c, m_ctx m = Some c -> WireSpec.ctx_wf c) ->
  decrypt_manifest_with P is_mine p m = Ok m' ->
  exists c ct tag pt tn n, m = mkMan (Some c) (MEnc ct) (Some tag) /\ is_mine c = true /\ a_keynum (ctx_aead c) = ap_num p /\
    pr_open P (ak_alg (ap_key p)) (ak_key (ap_key p)) (spec_iv (ap_salt p) (a_nonce (ctx_aead c))) (ct ++ tag) (w_ctx c) = Ok (Some pt) /\
    tlv_make T_NODE pt = Ok tn /\ node_parse tn = Ok n /\ m' = mkMan None (MNode n) None.
Proof.
  intros P is_mine p m m' W H. apply decrypted in H as (c & ct & tag & tc & pt & tn & n & -> & H1 & H2 & H3 & H4 & H5 & H6 & ->).
  rewrite (ctx_wire c tc (W c eq_refl) H3) in H4. exists c, ct, tag, pt, tn, n. repeat split; assumption.
Qed.
(* an invalid tag raises DecryptionError *)
Theorem C60_invalid_tag : forall P p c ct tag md tc, WireSpec.ctx_wf c -> ctx_tlv c = Ok tc ->
  a_keynum (ctx_aead c) = ap_num p -> a_mode (ctx_aead c) = Some md -> alg_of_mode md = Some (ak_alg (ap_key p)) ->
  (forall s, ap_salt p = Some s -> 0 <= s < 2 ^ 32) ->
  pr_open P (ak_alg (ap_key p)) (ak_key (ap_key p)) (spec_iv (ap_salt p) (a_nonce (ctx_aead c))) (ct ++ tag) (w_ctx c) = Ok None ->
  forall is_mine, is_mine c = true ->
  decrypt_manifest_with P is_mine p (mkMan (Some c) (MEnc ct) (Some tag)) = Err DecryptionError.
Proof.
  intros P p c ct tag md tc W Hc Hk Hm Ha Hs Ho is_mine Hi. unfold decrypt_manifest_with. cbn [m_node m_ctx m_tag]. rewrite Hi. cbn [guard bind].
  unfold decrypt_node. rewrite Hk, Z.eqb_refl. cbn [guard bind].
  assert (check_mode p c = Ok tt) as ->.
  { unfold check_mode. rewrite Hm. unfold alg_of_mode in Ha. unfold MODE_GCM_128, MODE_GCM_256, MODE_CCM_128, MODE_CCM_256.
    destruct ((md =? 1) || (md =? 2)) eqn:E1; [injection Ha as <-; reflexivity|].
    destruct ((md =? 3) || (md =? 4)) eqn:E2; [injection Ha as <-; reflexivity|discriminate]. }
  cbn [bind]. assert (iv_of p (a_nonce (ctx_aead c)) = Ok (spec_iv (ap_salt p) (a_nonce (ctx_aead c)))) as ->.
  { unfold iv_of, spec_iv. destruct (ap_salt p) as [s|]; [|reflexivity]. specialize (Hs s eq_refl).
    destruct (to_bytes4 s) as [b|] eqn:E; [apply to_bytes4_ok in E as [_ ->]; reflexivity|].
    exfalso. unfold to_bytes4 in E. destruct ((0 <=? s) && (s <? 2 ^ 32)) eqn:B; [discriminate|lia]. }
  cbn [bind]. rewrite Hc. cbn [bind]. rewrite <- (ctx_wire c tc W Hc) in Ho. unfold aead_open. rewrite Ho. reflexivity.
Qed.

(* An ideal cipher: under this key it accepts only what was sealed with it,
   here the encryptions in the list. *)
Definition enc : Type := node * secctx * bytes * bytes.
Definition made_with (P : prims) (p : aparams) (e : enc) : Prop :=
  let '(n, c, ct, tag) := e in node_wf n /\ WireSpec.ctx_wf c /\ encrypt_with_ctx P p n c = Ok (ct, tag).
Definition accepts_only (P : prims) (p : aparams) (l : list enc) : Prop :=
  forall iv x aad pt, pr_open P (ak_alg (ap_key p)) (ak_key (ap_key p)) iv x aad = Ok (Some pt) ->
    exists n c ct tag, In (n, c, ct, tag) l /\ iv = spec_iv (ap_salt p) (a_nonce (ctx_aead c)) /\ x = ct ++ tag /\ aad = w_ctx c.
(* Then a manifest that decrypts was sent: same context, same encrypted bytes,
   and it decrypts to the node that was encrypted. *)
Theorem C60_tampering : forall P is_mine p l m m', aead_correct P -> Forall (made_with P p) l -> accepts_only P p l ->
  (forall c, m_ctx m = Some c -> WireSpec.ctx_wf c) -> decrypt_manifest_with P is_mine p m = Ok m' ->
  exists n c ct tag, In (n, c, ct, tag) l /\
    (exists c' ct' tag', m = mkMan (Some c') (MEnc ct') (Some tag') /\ same_ctx c' c /\ ct' ++ tag' = ct ++ tag) /\
    exists n', m' = mkMan None (MNode n') None /\ same_node n' n.
Proof.
  intros P is_mine p l m m' Hc HL Ha W H. apply decrypted in H as (c' & ct' & tag' & tc & pt & tn & n' & -> & H1 & H2 & H3 & H4 & H5 & H6 & ->).
  destruct (Ha _ _ _ _ H4) as (n & c & ct & tag & Hin & Eiv & Ex & Eaad). rewrite Forall_forall in HL. specialize (HL _ Hin) as (Wn & Wc & He).
  exists n, c, ct, tag. split; [exact Hin|]. pose proof He as He'. apply encrypt_ok in He' as (iv & tn' & tc' & Hiv & Htn & Htc & Hs).
  rewrite (ctx_wire c' tc (W c' eq_refl) H3) in Eaad, H4. split.
  - exists c', ct', tag'. split; [reflexivity|]. split; [|exact Ex].
    eapply C46_aad_determines_context; [exact (W c' eq_refl)|exact Wc|exact H3|exact Htc|exact Eaad].
  - exists n'. split; [reflexivity|]. apply iv_of_spec in Hiv. rewrite Hiv in Hs. apply Hc in Hs.
    rewrite (ctx_wire c tc' Wc Htc) in Hs. rewrite Eiv, Ex, Eaad, Hs in H4. injection H4 as <-.
    assert (tn = tn') as ->.
    { apply node_tlv_ok in Htn as (_ & Ht & _). apply tlv_make_ok in H5 as (_ & ->). destruct tn' as [ty v]. cbn [t_type t_val] in *. congruence. }
    rewrite (node_roundtrip n tn' Wn Htn) in H6. injection H6 as <-. apply same_node_norm.
Qed.
(* The border between encrypted node and tag is not protected: moving bytes
   across it gives another manifest that decrypts to the same. *)
Theorem C60_border_refuted : forall P is_mine p c ct tag ct' tag', ct ++ tag = ct' ++ tag' ->
  decrypt_manifest_with P is_mine p (mkMan (Some c) (MEnc ct) (Some tag)) =
  decrypt_manifest_with P is_mine p (mkMan (Some c) (MEnc ct') (Some tag')).
Proof.
  intros P is_mine p c ct tag ct' tag' E. unfold decrypt_manifest_with, decrypt_node, aead_open. cbn [m_node m_ctx m_tag]. rewrite E. reflexivity.
Qed.
(* The tag is what the cipher appends: 16 bytes. *)
Theorem C60_tag_length : forall P p n c ct tag, seal_adds_tag P -> encrypt_with_ctx P p n c = Ok (ct, tag) ->
  exists tn, node_tlv n = Ok tn /\ zlen ct = zlen (t_val tn) /\ zlen tag = 16.
Proof.
  intros P p n c ct tag Hs H. unfold encrypt_with_ctx in H. inv_bind H. inv_bind H. inv_bind H. inv_bind H. destruct a2 as [ct0 tag0].
  inv_bind H. inv_bind H. injection H as -> ->. exists a0. split; [exact E0|]. unfold aead_seal in E2. inv_bind E2. inv_bind E2. inv_bind E2.
  injection E2 as -> ->. apply array_B_ok in E6 as [_ ->]. apply array_B_ok in E7 as [_ ->]. apply Hs in E5.
  pose proof (zlen_nonneg (t_val a0)). match goal with |- context [zskip (zlen ?x) _] => pose proof (zlen_nonneg x) end. rewrite zlen_zskip by assumption. rewrite zlen_ztake by lia. lia.
Qed.


(* An instance: the toy cipher, restricted to seal and open one message. *)
Definition ex_ap60 : aparams := mkAP (ex_key GCM) 300 (Some 9) None None.
Definition ex_ctx60 : secctx := CAead (mkAead 300 (repeat 9 8) (Some 1) None).
Definition ex_enc60 : bytes * bytes := match encrypt_with_ctx toy ex_ap60 ex_node ex_ctx60 with Ok x => x | Err _ => ([], []) end.
Definition ex_iv60 : bytes := spec_iv (Some 9) (repeat 9 8).
Definition one_message : prims := mkPrims (pr_sha toy) (pr_crc toy) Z Z (pr_pub toy) (pr_der toy) (pr_bits toy) (pr_sign toy) (pr_verify toy)
  (pr_oaep_enc toy) (pr_oaep_dec toy)
  (fun a k iv pt aad => if beqb iv ex_iv60 && beqb aad (w_ctx ex_ctx60) && beqb pt (fst ex_enc60) then Ok (fst ex_enc60 ++ snd ex_enc60) else Err ValueError)
  (fun a k iv x aad => if beqb iv ex_iv60 && beqb aad (w_ctx ex_ctx60) && beqb x (fst ex_enc60 ++ snd ex_enc60) then Ok (Some (fst ex_enc60)) else Ok None).
Example C60_ex : aead_correct one_message /\ seal_adds_tag one_message /\
  Forall (made_with one_message ex_ap60) [(ex_node, ex_ctx60, fst ex_enc60, snd ex_enc60)] /\
  accepts_only one_message ex_ap60 [(ex_node, ex_ctx60, fst ex_enc60, snd ex_enc60)] /\
  (exists n, decrypt_manifest_with one_message is_aead_ctx ex_ap60 (mkMan (Some ex_ctx60) (MEnc (fst ex_enc60)) (Some (snd ex_enc60))) = Ok (mkMan None (MNode n) None)) /\
  decrypt_manifest_with one_message is_aead_ctx ex_ap60 (mkMan (Some ex_ctx60) (MEnc (fst ex_enc60)) (Some (0 :: snd ex_enc60))) = Err DecryptionError.
Proof.
  split; [|split; [|split; [|split; [|split]]]].
  - intros a k iv pt aad c H. cbn [pr_seal pr_open one_message] in *.
    destruct (beqb iv ex_iv60 && beqb aad (w_ctx ex_ctx60)) eqn:E; cbn [andb] in *; [|discriminate].
    destruct (beqb pt (fst ex_enc60)) eqn:E2; [|discriminate]. apply Ok_inj in H. subst c. rewrite beqb_refl.
    apply beqb_spec in E2. now subst pt.
  - intros a k iv pt aad c H. cbn [pr_seal one_message] in H. destruct (_ && _) eqn:E; [|discriminate]. apply Ok_inj in H. subst c.
    apply andb_prop in E as [_ E]. apply beqb_spec in E. subst pt. rewrite zlen_app. vm_compute. reflexivity.
  - constructor; [|constructor]. split; [exact ex_node_wf|]. split; [|vm_compute; reflexivity].
    split; [cbn; lia|]. split; [intros n [= <-]; reflexivity|intros; discriminate].
  - intros iv x aad pt H. cbn [pr_open one_message] in H. destruct (_ && _) eqn:E; [|discriminate].
    apply andb_prop in E as [E E3]. apply andb_prop in E as [E1 E2]. apply beqb_spec in E1, E2, E3.
    exists ex_node, ex_ctx60, (fst ex_enc60), (snd ex_enc60). split; [now left|]. auto.
  - eexists. vm_compute. reflexivity.
  - vm_compute. reflexivity.
Qed.
Print Assumptions C60_decrypts_only_authentic.
Print Assumptions C60_invalid_tag.
Print Assumptions C60_tampering.
Print Assumptions C60_border_refuted.
Print Assumptions C60_tag_length.

(* A wrapped key fits the RSA key: salt and key leave room for the padding. *)
Theorem C48_wrap_limit : forall P k seed p c, wrap_create P k seed p = Ok c ->
  4 + zlen (ak_key (ap_key p)) + 66 <= (pr_bits P (rsa_pub P k) + 7) / 8.
Proof.
  intros P k seed p c H. unfold wrap_create in H. destruct (ap_salt p) as [s|]; [|discriminate].
  inv_bind H. inv_bind H. inv_bind H. inv_bind H. inv_bind H. inv_bind H. unfold rsa_oaep_encrypt in E4. inv_bind E4.
  apply guard_ok in E5. rewrite zlen_app in E5. apply uint32_ok in E0 as (_ & -> & _). unfold zlen at 1 in E5. rewrite be_bytes_length in E5. lia.
Qed.
Print Assumptions C48_wrap_limit.

(** * C61: what is encrypted and what is signed *)

Section Protection.
Context {P : prims} (o : opts P) (now : fl).
(* the manifest is in the clear without an encryptor; with one its node is
   encrypted under the key number of the encryptor, and the wrapped key is in
   it only if [wrapped] *)
Definition protected (wrapped : bool) (m : manifest) : Prop :=
  match op_enc o with
  | ENone => exists nd, m = mkMan None (MNode nd) None
  | EAead a => exists x ct tag, m = mkMan (Some (CAead x)) (MEnc ct) (Some tag) /\ a_keynum x = ap_num a
  | EOaep i => exists x ct tag, m = mkMan (Some (CRsa x (if wrapped then oi_wrapper i else None))) (MEnc ct) (Some tag) /\
      a_keynum x = ap_num (oi_params i)
  end.
Definition unsigned (p : packet) : Prop := p_alg p = None /\ p_vpl p = None.
Definition signed (p : packet) : Prop :=
  match op_signer o with
  | None => unsigned p
  | Some SCrc => p_alg p = Some VCrc32c /\ exists b, p_vpl p = Some b
  | Some (SRsa sk) => (exists kid, rsa_keyid P (RPriv sk) = Ok kid /\ p_alg p = Some (VRsa kid None None now)) /\ exists b, p_vpl p = Some b
  end.
Definition manifest_object (p : packet) (m : manifest) : Prop :=
  exists c w, p_body p = BCO c /\ co_ptype c = Some PT_MANIFEST /\ co_payload c = Some w /\ man_wire m = Ok w.
End Protection.

Lemma enc_create_shape P a nonce nd m : aead_create_manifest P a nonce nd = Ok m ->
  exists x ct tag, m = mkMan (Some (CAead x)) (MEnc ct) (Some tag) /\ a_keynum x = ap_num a.
Proof. intros H. apply aead_create_ok in H as (md & ct & tag & _ & _ & -> & _). do 3 eexists. split; reflexivity. Qed.
Lemma oaep_create_shape P i inc nonce nd m : oaep_create_manifest P i inc nonce nd = Ok m ->
  exists x ct tag, m = mkMan (Some (CRsa x (if inc then oi_wrapper i else None))) (MEnc ct) (Some tag) /\ a_keynum x = ap_num (oi_params i).
Proof.
  intros H. unfold oaep_create_manifest in H. inv_bind H. unfold oaep_encrypt in E. inv_bind E. inv_bind E. inv_bind E.
  destruct a2 as [ct tag]. apply Ok_inj in E. subst a. unfold manifest_of in H. inv_bind H. apply Ok_inj in H. subst m.
  unfold create_aead_data in E0. inv_bind E0. inv_bind E0. apply Ok_inj in E0. subst a0. do 3 eexists. split; reflexivity.
Qed.
Lemma carried_protected P rnd (v : tenv P) nd k nm p : carries P rnd v nd k nm p ->
  exists m, manifest_object p m /\ protected (te_opt v) false m /\ unsigned p.
Proof.
  intros (m & w & Hm & Hw & _ & Hb & Ha & (Hv & _) & _). exists m. split; [|split; [|split; assumption]].
  - eexists _, w. split; [exact Hb|]. auto.
  - unfold manifest_for in Hm. unfold protected. destruct (op_enc (te_opt v)); [eauto|eapply enc_create_shape; exact Hm|eapply (oaep_create_shape _ _ false); exact Hm].
Qed.
Lemma data_unsigned P (o : opts P) i id l pkts meta p : emits P o i id l pkts meta -> In p pkts -> is_data_object p /\ unsigned p.
Proof.
  revert id l meta. induction pkts as [|q pkts IH]; intros id l meta H Hin; [contradiction|].
  destruct meta as [|m meta]; [destruct l; cbn [emits] in H; contradiction|]. destruct l as [|b l]; cbn [emits] in H; [contradiction|].
  destruct H as (D & H). destruct Hin as [->|Hin]; [|eapply IH; eassumption].
  destruct D as (n & w & h & _ & Hb & Ha & (Hv & _) & _). split; [eexists; split; [exact Hb|reflexivity]|split; assumption].
Qed.

Lemma signed_fields c a v p : create_signed_content_object c a v = Ok p -> p_alg p = Some a /\ p_vpl p = Some v.
Proof.
  unfold create_signed_content_object. intros H. inv_bind H. inv_bind H. inv_bind H. cbv zeta in H. inv_bind H. apply Ok_inj in H. subst p. split; reflexivity.
Qed.

(* At every moment of every run: data objects are unsigned; manifests are
   protected as the options ask and unsigned, except the root manifest, which
   is the last packet of a successful run and signed as the options ask. *)
Lemma ended_protected : forall P clog rnd now (o : opts P) nc data s r s',
  log_ok clog -> op_max o <= 2 ^ 24 -> ended P clog rnd now o nc data s r s' ->
  exists new, ms_out s' = ms_out s ++ new /\ (forall root, r = Ok root -> exists pre, new = pre ++ [root]) /\
    forall pre p post, new = pre ++ p :: post ->
      match r, post with
      | Ok root, [] => p = root /\ exists m, manifest_object p m /\ protected o true m /\ signed o now p
      | _, _ => (is_data_object p /\ unsigned p) \/ (exists m, manifest_object p m /\ protected o false m /\ unsigned p)
      end.
Proof.
  intros P clog rnd now o nc data s r s' HL HM H.
  unfold ended in H. rename H into R.
  assert (F : forall k' x ps l pkts meta num r0 ts, setup P clog rnd now o nc data (ms_nonce s) k' x ps l pkts meta num r0 ->
    Forall (fun t => exists lv, wf P rnd now (env_of P o x meta r0) lv t) ts ->
    forall p, In p (map mi_pkt (forest_infos ts)) -> exists m, manifest_object p m /\ protected o false m /\ unsigned p).
  { intros k' x ps l pkts meta num r0 ts SU W p Hp. apply in_map_iff in Hp as (i & <- & Hi). unfold forest_infos in Hi.
    apply in_concat in Hi as (li & Hl & Hi). apply in_rev in Hl. apply in_map_iff in Hl as (t & <- & Ht).
    rewrite Forall_forall in W. destruct (W t Ht) as (lv & Wt). apply (Permutation_in _ (infos_subtrees t)) in Hi.
    apply in_map_iff in Hi as (u & <- & Hu). destruct (wf_sub P rnd now _ t lv Wt u Hu) as (l' & _ & Wu).
    apply wf_faithful in Wu as (Hc & _); [|eapply nctx_create_wf; apply SU]. apply carried_protected in Hc. exact Hc. }
  destruct r as [root|e].
  - destruct R as (k' & x & ps & l & pkts & meta & num & r & lv & t & np & b & k2 & SU & RS & RP & ->).
    cbn [ms_out]. eexists. split; [reflexivity|].
    split. { intros root' [= <-]. exists (pkts ++ map mi_pkt (infos t)). now rewrite app_assoc. }
    intros pre p post E.
    assert ((exists q post', post = q :: post' /\ (In p pkts \/ In p (map mi_pkt (infos t)))) \/ (p = root /\ post = [])) as [(q & post' & -> & [Hp|Hp])|(-> & ->)].
    { destruct post as [|q post].
      - right. rewrite app_assoc in E. apply app_inj_tail in E as [_ ->]. auto.
      - left. exists q, post. split; [reflexivity|]. assert (In p (pkts ++ map mi_pkt (infos t))) as X; [|apply in_app_iff in X; tauto].
        destruct (exists_last (l := q :: post)) as (post' & z & Ez); [discriminate|]. rewrite Ez in E.
        rewrite app_assoc in E. change (p :: post' ++ [z]) with ((p :: post') ++ [z]) in E. rewrite app_assoc in E.
        apply app_inj_tail in E as [-> _]. apply in_app_iff. right. now left. }
    + left. eapply data_unsigned; [apply SU|exact Hp].
    + right. eapply (F _ _ _ _ _ _ _ _ [t] SU); [|rewrite forest_infos_one; exact Hp].
      constructor; [|constructor]. exists lv. apply RS.
    + split; [reflexivity|]. apply root_inv in RP as (h & m & w & Hh & Hm & Hw & _ & Hs & Hb & _). exists m. split; [|split].
      * eexists _, w. split; [exact Hb|]. auto.
      * unfold root_manifest in Hm. unfold protected. destruct (op_enc o); [eauto|eapply enc_create_shape; exact Hm|eapply (oaep_create_shape _ _ true); exact Hm].
      * unfold signed. destruct (op_signer o) as [[|sk]|].
        -- unfold sign_content in Hs. inv_bind Hs. inv_bind Hs. inv_bind Hs. inv_bind Hs. apply signed_fields in Hs as (-> & ->).
           unfold signer_alg in E0. inv_bind E0. inv_bind E0. inv_bind E0. apply Ok_inj in E0. subst a. eauto.
        -- unfold sign_content in Hs. inv_bind Hs. inv_bind Hs. inv_bind Hs. inv_bind Hs. apply signed_fields in Hs as (-> & ->).
           unfold signer_alg in E0. inv_bind E0. inv_bind E0. cbv zeta in E0. inv_bind E0. apply Ok_inj in E0. subst a. eauto.
        -- unfold create_content_object in Hs. inv_bind Hs. cbv zeta in Hs. inv_bind Hs. apply Ok_inj in Hs. subst root. split; reflexivity.
  - destruct R as (_ & pkts & ts & -> & G). eexists. split; [reflexivity|]. split; [discriminate|]. intros pre p post E.
    assert (In p (pkts ++ map mi_pkt (forest_infos ts))) as X by (rewrite E; apply in_app_iff; right; now left).
    apply in_app_iff in X as [X|X].
    + destruct G as (x & ps & l & meta & _ & _ & _ & _ & He & _); [left; intros ->; contradiction|]. left. eapply data_unsigned; [exact He|exact X].
    + destruct ts as [|t ts]; [contradiction|]. destruct G as (x & ps & l & meta & _ & _ & _ & _ & _ & G); [right; discriminate|].
      destruct G as (k' & num & r & SU & W & _); [discriminate|]. right. eapply F; eassumption.
Qed.
Theorem C61_protection : forall P clog rnd now (o : opts P) nc data s r s',
  log_ok clog -> op_max o <= 2 ^ 24 -> manifest_tree P clog rnd now o nc data s = (r, s') ->
  exists new, ms_out s' = ms_out s ++ new /\ (forall root, r = Ok root -> exists pre, new = pre ++ [root]) /\
    forall pre p post, new = pre ++ p :: post ->
      match r, post with
      | Ok root, [] => p = root /\ exists m, manifest_object p m /\ protected o true m /\ signed o now p
      | _, _ => (is_data_object p /\ unsigned p) \/ (exists m, manifest_object p m /\ protected o false m /\ unsigned p)
      end.
Proof.
  intros P clog rnd now o nc data s r s' HL HM H. eapply ended_protected; try eassumption. eapply manifest_tree_ended; eassumption.
Qed.

(* What the packets of a build look like: kind of packet (0 data, 1 manifest in
   the clear, 2 encrypted, 3 encrypted with wrapped key) and whether signed. *)
Definition ex_look (p : packet) : Z * bool :=
  (match p_body p with
   | BCO c =>
     match co_payload c with
     | Some w => if match co_ptype c with Some t => t =? PT_DATA | None => false end then 0 else
       match man_deserialize w with
       | Ok (mkMan None (MNode _) None) => 1
       | Ok (mkMan (Some (CRsa _ (Some _))) (MEnc _) (Some _)) => 3
       | Ok (mkMan (Some _) (MEnc _) (Some _)) => 2
       | _ => -1
       end
     | None => -2
     end
   | _ => -3
   end, negb (is_none (p_alg p)) && negb (is_none (p_vpl p))).
Definition ex_looks (o : opts toy) (data : bytes) : list (Z * bool) :=
  map ex_look (ms_out (snd (manifest_tree toy exact_log (ex_nonce o) (mkFl 0 0) o 1 data (mkMst [] 0)))).
Example C61_ex :
  ex_looks (ex_secret Prefixed 400) (ex_bytes 1000) = repeat (0, false) 3 ++ [(2, false); (2, true)] /\
  ex_looks (ex_wrapped Hashed 500) (ex_bytes 1000) = repeat (0, false) 3 ++ [(2, false); (3, true)] /\
  ex_looks (ex_deg Hashed None) (ex_bytes 1000) = repeat (0, false) 4 ++ [(1, false); (1, false)].
Proof. split; [vm_compute; reflexivity|]. split; vm_compute; reflexivity. Qed.
Print Assumptions C61_protection.

(* The signature of the root manifest is accepted by whoever has the key. *)
Theorem C61_root_validates : forall P clog rnd now (o : opts P) nc data s root s' sg ks,
  log_ok clog -> op_max o <= 2 ^ 24 -> sig_correct P ->
  manifest_tree P clog rnd now o nc data s = (Ok root, s') -> op_signer o = Some sg -> knows P ks sg ->
  signed o now root /\ p_alg root <> None /\ accepted P ks root /\ validate_packet P ks root = Ok tt.
Proof.
  intros P clog rnd now o nc data s root s' sg ks HL HM HS H G K.
  destruct (C61_protection P clog rnd now o nc data s _ s' HL HM H) as (new & _ & L & C).
  destruct (L root eq_refl) as (pre & ->). destruct (C pre root [] eq_refl) as (_ & m & _ & _ & S). split; [exact S|].
  split. { unfold signed in S. rewrite G in S. destruct sg; [destruct S as (-> & _)|destruct S as ((kid & _ & ->) & _)]; discriminate. }
  apply (manifest_tree_ok P clog rnd now o nc data HL HM) in H as (k' & x & ps & l & pkts & meta & num & r & lv & t & np & b & k2 & SU & RS & RP & ->).
  apply root_inv in RP as (h & m' & w & _ & _ & _ & _ & Hs & _). rewrite G in Hs.
  assert (validate_packet P ks root = Ok tt) as V by (eapply C21_signed_packet_validates; eassumption).
  split; [now apply C22_validation_accepts|exact V].
Qed.
Example C61_validates_ex : let store := Some (mkKS toy [] [(mkHash 1 (repeat 8 32), RPub (P:=toy) 7)] []) in
  knows toy store (SRsa (P:=toy) 7) /\ op_signer (ex_secret Prefixed 400) = Some (SRsa (P:=toy) 7) /\ sig_correct toy /\
  match manifest_tree toy exact_log (ex_nonce (ex_secret Prefixed 400)) (mkFl 0 0) (ex_secret Prefixed 400) 1 (ex_bytes 500) (mkMst [] 0) with
  | (Ok root, _) => validate_packet toy store root = Ok tt
  | _ => False
  end.
Proof.
  intros store. split; [|split; [reflexivity|split; [exact toy_sig|vm_compute; reflexivity]]].
  cbn [knows]. do 3 eexists. split; [reflexivity|]. split; [vm_compute; reflexivity|]. split; reflexivity.
Qed.
Print Assumptions C61_root_validates.
