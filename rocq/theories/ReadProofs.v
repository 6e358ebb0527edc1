(* What a traversal of a build sees. *)
From Coq Require Import ZArith List Bool Lia ZifyBool Permutation.
From Verif Require Import Py Tlv Float Core TlvProofs CoreProofs PropsCore Flic WireSpec FlicProofs Crypto CryptoProofs
  PropsCrypto Optimizer OptimizerProofs Tree TreeSpec TreeProofs TreeFacts PropsOptimizer PropsTree ChunkProofs SizeProofs SizeNode
  PropsChunk BuildProofs Store StoreProofs PropsStore Traversal TraversalSpec TraversalProofs EndSpec EndProofs.
Import ListNotations.
Open Scope Z_scope.
Opaque tlv_make tlv_wire tlv_deserialize.

(* ---------------- the tree that a traversal walks ---------------- *)

(* names made from the parsed definition are those made from the original *)
Definition readback (i : impl) : Prop :=
  forall id, impl_name (mkImpl (im_nc i) (schema_norm (im_schema i))) id = impl_name i id.
Definition scoped (x : nctx) (D : scope) : Prop :=
  forall i, i = nx_man x \/ i = nx_data x -> resolve (im_nc i) D = Some (ncdef_norm (impl_ncdef i)).

Section Walks.
Context (P : prims) (get : option name -> option hashv -> res packet) (ks : option (keystore P)) (wr : bool)
  (I : option (dcache P) -> Prop).
Notation valid := (validate_packet P ks).
Notation walk := (walk get valid wr (opened P I) (refused P I)).
Notation walks := (walks get valid wr (opened P I) (refused P I)).

Lemma walks_items D items kids : Forall2 (fun i t => target get D i = Ok (pt_packet t) /\ valid (pt_packet t) = Ok tt /\
    walk D t /\ pt_stop t = None) items kids -> walks D items None kids None.
Proof. induction 1 as [|i t items kids (H1 & H2 & H3 & H4) _ IH]; econstructor; eassumption. Qed.

Context (rnd : nat -> bytes) (now : fl) (o : opts P) (x : nctx) (meta : list cmeta) (r : optres)
  {z : Z} (l : list bytes) (pkts : list packet).
Let v := env_of P o x meta r.
Hypothesis Hx : ctx_wf x.
Hypothesis Hem : emits P o (nx_data x) z l pkts meta.
Hypothesis Hm : readback (nx_man x).
Hypothesis Hd : readback (nx_data x).
Hypothesis Hpk : Forall (available get ks) pkts.
Hypothesis Hop : forall nd k nm p q, carries P rnd v nd k nm p -> node_wf nd -> copy ks q p ->
  opened P I q (node_norm nd).

Lemma emits_nums i : 0 <= i < zlen meta -> cm_num (chunk_meta P v i) = z + i.
Proof.
  intros Hi. destruct (emits_at P o (nx_data x) l pkts meta i Hem Hi) as (b & p & _ & _ & D).
  unfold chunk_meta. cbn [v env_of te_meta]. destruct D as (nm & w & h & _ & _ & _ & _ & _ & _ & _ & _ & _ & _ & E). rewrite E. reflexivity.
Qed.
Lemma emits_numbered : numbered P v.
Proof. exists z. exact emits_nums. Qed.
Lemma impl_name_seg i id : impl_name i (opt_if (uses_name_id i) id) = impl_name i (Some id).
Proof.
  unfold impl_name, uses_name_id. destruct (im_schema i) as [? ?|? ? ?|? ? ? ?]; reflexivity.
Qed.
Lemma uses_same : uses_name_id (nx_man x) = uses_name_id (nx_data x).
Proof. unfold ctx_wf in Hx. destruct (nx_two x); [tauto|]. destruct Hx as [-> _]. reflexivity. Qed.

Lemma find_target D i id h : scoped x D -> (i = nx_man x \/ i = nx_data x) ->
  forall nm, impl_name i (Some id) = Ok nm ->
  target get D (mkHiv (im_nc i) h (opt_if (uses_name_id (nx_man x)) id)) = get nm (Some h).
Proof.
  intros HD Hi nm Hnm. unfold target. cbn [hi_nc hi_seg hi_hash]. rewrite (HD i Hi). cbn [ncdef_norm nd_schema impl_ncdef option_map].
  assert (readback i) as Hr by (destruct Hi as [->| ->]; assumption). rewrite Hr.
  assert (uses_name_id (nx_man x) = uses_name_id i) as -> by (destruct Hi as [->| ->]; [reflexivity|apply uses_same]).
  rewrite impl_name_seg, Hnm. reflexivity.
Qed.

Lemma chunk_walk D i : scoped x D -> 0 <= i < zlen meta ->
  exists t b, nth_error l (Z.to_nat i) = Some b /\ target get D (tg_hiv P v (TChunk i)) = Ok (pt_packet t) /\ valid (pt_packet t) = Ok tt /\
    walk D t /\ pt_stop t = None /\ depth t = 1%nat /\ flat_map data_of (visited t) = [b] /\ zlen (visited t) = 1.
Proof.
  intros HD Hi. destruct (emits_at P o (nx_data x) l pkts meta i Hem Hi) as (b & p & Eb & Ep & D0).
  destruct D0 as (nm & w & h & Hn & Hb & _ & _ & _ & _ & _ & _ & _ & Hh & Hmeta).
  rewrite Forall_forall in Hpk. destruct (Hpk p (nth_error_In _ _ Ep) h Hh) as (q & Hq & (c & c' & Hc & Hc' & Ht & Hpl & Hv)).
  rewrite Hb in Hc. injection Hc as <-. cbn [co_ptype co_payload] in Ht, Hpl.
  exists (PT q None [] None), b. split; [exact Eb|]. cbn [pt_packet pt_stop]. split; [|split; [exact Hv|split; [|split; [reflexivity|split; [reflexivity|]]]]].
  - unfold tg_hiv. cbn [tg_impl tg_hash tg_num te_ctx v env_of]. change (chunk_meta P v i) with (nth (Z.to_nat i) meta no_chunk).
    rewrite Hmeta. cbn [cm_num cm_hash].
    rewrite (find_target D (nx_data x) (z + i) h HD (or_intror eq_refl) nm Hn). unfold body_name in Hq. rewrite Hb in Hq. exact Hq.
  - eapply W_data; [exact Hc'|exact Ht|]. intros _. rewrite Hpl. discriminate.
  - cbn [visited flat_map]. unfold data_of. rewrite Hc', Ht, Hpl. change (PT_DATA =? PT_DATA) with true. split; reflexivity.
Qed.

Definition piece (i : Z) : bytes := nth (Z.to_nat i) l [].

Lemma chunk_walks D lo hi : scoped x D -> 0 <= lo -> hi <= zlen meta ->
  exists ts, Forall2 (fun i t => target get D i = Ok (pt_packet t) /\ valid (pt_packet t) = Ok tt /\
      walk D t /\ pt_stop t = None) (map (tg_hiv P v) (map TChunk (zrange lo hi))) ts /\
    Forall (fun t => depth t = 1%nat) ts /\
    flat_map data_of (flat_map visited ts) = map piece (zrange lo hi) /\
    zlen (flat_map visited ts) = zlen (zrange lo hi).
Proof.
  intros HD Hlo Hhi. assert (X : forall is, Forall (fun i => 0 <= i < zlen meta) is ->
    exists ts, Forall2 (fun i t => target get D i = Ok (pt_packet t) /\ valid (pt_packet t) = Ok tt /\
      walk D t /\ pt_stop t = None) (map (tg_hiv P v) (map TChunk is)) ts /\
    Forall (fun t => depth t = 1%nat) ts /\
    flat_map data_of (flat_map visited ts) = map piece is /\ zlen (flat_map visited ts) = zlen is).
  { induction 1 as [|i is Hi _ (ts & F & Fd & E1 & E2)]; [exists []; repeat constructor|].
    destruct (chunk_walk D i HD Hi) as (t & b & Eb & H1 & H2 & H3 & H4 & H5 & H6 & H7).
    exists (t :: ts). cbn [map flat_map]. split; [constructor; auto|]. split; [constructor; auto|].
    rewrite flat_map_app, H6, E1. cbn [app]. rewrite zlen_app, H7, E2, zlen_cons. split; [|reflexivity].
    f_equal. unfold piece. symmetry. apply nth_error_nth. exact Eb. }
  apply X. apply Forall_forall. intros i Hi. apply zrange_in in Hi. lia.
Qed.

Lemma size_defs b : node_defs (mkNode (option_map nd_norm (size_data P v b)) [] None) = [].
Proof. unfold node_defs, size_data, opt_if. cbn [n_data]. destruct (op_nsize _); reflexivity. Qed.
Lemma tree_defs lv u : wf P rnd now v lv u -> node_defs (node_norm (mi_node (top u))) = [].
Proof.
  intros W. destruct u as [i lo hi|i lo hi kids]; cbn [top].
  - apply wf_leaf in W as (_ & _ & _ & _ & _ & ->). exact (size_defs _).
  - apply wf_inner in W as (l' & _ & _ & _ & _ & _ & _ & _ & _ & -> & _). exact (size_defs _).
Qed.
Lemma scoped_nil D : scoped x D -> scoped x ([] :: D).
Proof. intros H i Hi. cbn [resolve last_def]. apply H. exact Hi. Qed.

Lemma fold_max_le ts n : Forall (fun t => (depth t <= n)%nat) ts ->
  (fold_right (fun k m => Nat.max (depth k) m) O ts <= n)%nat.
Proof. induction 1; cbn [fold_right]; lia. Qed.

Lemma tree_walk u : forall lv D q, wf P rnd now v lv u -> scoped x D ->
  Forall (fun w => available get ks (mi_pkt (top w)) /\ node_wf (mi_node (top w))) (subtrees u) ->
  copy ks q (mi_pkt (top u)) ->
  exists t, pt_packet t = q /\ walk D t /\ pt_stop t = None /\ (depth t <= lv + 2)%nat /\
    flat_map data_of (visited t) = map piece (chunks u) /\
    zlen (visited t) = zlen (infos u) + zlen (chunks u).
Proof.
  induction u as [i lo hi|i lo hi kids IH] using tree_ind2; intros lv D q W HD HS HQ.
  - inversion HS as [|? ? (_ & Hwf) _]; subst. cbn [top] in *.
    pose proof (wf_faithful P rnd now v lv _ Hx W) as (Hc & _ & _ & _). cbn [top] in Hc.
    pose proof (Hop _ _ _ _ _ Hc Hwf HQ) as Ho. pose proof (node_items P rnd now v lv _ Hx emits_numbered W) as Hi.
    pose proof (tree_defs _ _ W) as Hnd. cbn [top targets] in *.
    pose proof W as W'. apply wf_leaf in W' as (_ & _ & L & L' & _ & _).
    destruct (chunk_walks ([] :: D) lo hi (scoped_nil D HD) ltac:(lia) L') as (ts & F & Fd & E1 & E2).
    exists (PT q (Some (node_norm (mi_node i))) ts None). cbn [pt_packet pt_stop]. split; [reflexivity|]. split.
    + eapply W_manifest; [exact Ho|rewrite Hnd; constructor|]. rewrite Hnd. cbn [node_norm n_groups]. rewrite Hi. cbn [fst snd].
      apply walks_items. exact F.
    + split; [reflexivity|]. split.
      * cbn [depth]. enough (fold_right (fun k m => Nat.max (depth k) m) O ts <= 1)%nat by lia.
        apply fold_max_le. eapply Forall_impl; [|exact Fd]. cbv beta. intros; lia.
      * destruct HQ as (c & c' & Hpb & Hqb & Ht & _). destruct Hc as (m & w & _ & _ & _ & Hb & _). rewrite Hb in Hpb. injection Hpb as <-.
        cbn [visited flat_map chunks infos]. rewrite E1, zlen_cons, E2. change (zlen [i]) with 1. split; [|lia].
        unfold data_of. rewrite Hqb, Ht. cbn [co_ptype]. change (PT_MANIFEST =? PT_DATA) with false. destruct (co_payload c'); reflexivity.
  - cbn [subtrees] in HS. inversion HS as [|? ? (_ & Hwf) HS']; subst. cbn [top] in *.
    pose proof (wf_faithful P rnd now v lv _ Hx W) as (Hc & _ & _ & _). cbn [top] in Hc.
    pose proof (Hop _ _ _ _ _ Hc Hwf HQ) as Ho. pose proof (node_items P rnd now v lv _ Hx emits_numbered W) as Hi.
    pose proof (tree_defs _ _ W) as Hnd. cbn [top targets] in *.
    pose proof W as W'. apply wf_inner in W' as (l' & -> & _ & _ & L & (e & L' & Ee) & _ & _ & _ & _ & _ & WK).
    destruct (chunk_walks ([] :: D) lo hi (scoped_nil D HD) ltac:(lia)) as (ts & F & Fd & E1 & E2).
    { change (zlen meta) with (zlen (te_meta v)). lia. }
    assert (exists tk, Forall2 (fun i t => target get ([] :: D) i = Ok (pt_packet t) /\ valid (pt_packet t) = Ok tt /\
        walk ([] :: D) t /\ pt_stop t = None) (map (tg_hiv P v) (map TKid kids)) tk /\
        Forall (fun t => (depth t <= l' + 2)%nat) tk /\
        flat_map data_of (flat_map visited tk) = map piece (flat_map chunks kids) /\
        zlen (flat_map visited tk) = zlen (forest_infos kids) + zlen (flat_map chunks kids)) as (tk & Fk & Fdk & Ek1 & Ek2).
    { unfold zlen at 2. rewrite (Permutation_length (forest_infos_perm kids)). fold (zlen (flat_map infos kids)). clear - IH WK HS' HD Hop Hm Hd Hpk Hem Hx.
      induction kids as [|k kids IHk]; [exists []; repeat constructor|].
      inversion IH as [|? ? IH1 IH2]; subst. inversion WK as [|? ? W1 W2]; subst. cbn [flat_map] in HS'. apply Forall_app in HS' as [S1 S2].
      destruct (IHk IH2 S2 W2) as (tk & Fk & Fdk & E1 & E2).
      pose proof (wf_faithful P rnd now v l' _ Hx W1) as (_ & Hn & Hh & _).
      assert (available get ks (mi_pkt (top k))) as Ha by (destruct k; inversion S1; subst; tauto).
      destruct (Ha _ Hh) as (q & Hq & HQ). destruct (IH1 l' ([] :: D) q W1 (scoped_nil D HD) S1 HQ) as (t & <- & G1 & G2 & G3 & G4 & G5).
      exists (t :: tk). cbn [map flat_map]. split; [|split; [constructor; [lia|assumption]|]].
      - constructor; [|assumption]. split; [|split; [|auto]].
        + unfold tg_hiv. cbn [tg_impl tg_hash tg_num te_ctx v env_of].
          rewrite (find_target ([] :: D) (nx_man x) (mi_id (top k)) _ (scoped_nil D HD) (or_introl eq_refl) _ Hn). 
          rewrite <- Hq. f_equal. pose proof (wf_faithful P rnd now v l' _ Hx W1) as ((m & w & _ & _ & _ & Hb & _) & _).
          unfold body_name. rewrite Hb. reflexivity.
        + destruct HQ as (? & ? & _ & _ & _ & _ & Hv). exact Hv.
      - rewrite flat_map_app, G4, E1, map_app, !zlen_app, G5, E2. split; [reflexivity|lia]. }
    exists (PT q (Some (node_norm (mi_node i))) (ts ++ tk) None). cbn [pt_packet pt_stop]. split; [reflexivity|]. split.
    + eapply W_manifest; [exact Ho|rewrite Hnd; constructor|]. rewrite Hnd. cbn [node_norm n_groups]. rewrite Hi. cbn [fst snd].
      apply walks_items. rewrite map_app. apply Forall2_app; assumption.
    + split; [reflexivity|]. split.
      * cbn [depth]. enough (fold_right (fun k m => Nat.max (depth k) m) O (ts ++ tk) <= l' + 2)%nat by lia.
        apply fold_max_le. apply Forall_app. split; [|assumption]. eapply Forall_impl; [|exact Fd]. cbv beta. intros; lia.
      * destruct HQ as (c & c' & Hpb & Hqb & Ht & _). destruct Hc as (m & w & _ & _ & _ & Hb & _). rewrite Hb in Hpb. injection Hpb as <-.
        cbn [visited flat_map chunks infos]. fold (forest_infos kids).
        rewrite !flat_map_app, E1, Ek1, map_app, zlen_cons, !zlen_app, E2, Ek2. change (zlen [i]) with 1. split; [|lia].
        unfold data_of at 1. rewrite Hqb, Ht. cbn [co_ptype]. change (PT_MANIFEST =? PT_DATA) with false. destruct (co_payload c'); reflexivity.
Qed.
End Walks.

(* ---------------- opening what was sent ---------------- *)

Section Open.
Context (P : prims) (o : opts P) (Ha : aead_correct P) (Ho : oaep_correct P).

Lemma received nd m w : (forall i, op_enc o = EOaep i -> forall wr, oi_wrapper i = Some wr ->
    exists key seed, wrapper_create P key seed (oi_params i) = Ok wr) ->
  match op_enc o with ENone => True | EAead a => params_ok a | EOaep i => params_ok (oi_params i) end ->
  manifest_of_node o nd m -> node_wf nd -> man_wire m = Ok w ->
  exists m', man_deserialize w = Ok m' /\
  match op_enc o with
  | ENone => m' = mkMan None (MNode (node_norm nd)) None
  | _ => m' = m
  end.
Proof.
  intros HW HP Hm Hn Ew. assert (G : man_wf m -> exists m', man_deserialize w = Ok m' /\ m' = man_norm m).
  { intros X. exists (man_norm m). split; [eapply man_roundtrip; eassumption|reflexivity]. }
  assert (M : forall p md, params_ok p -> mode_of_key (ap_key p) = Ok md -> forall nonce, aead_wf (mkAead (ap_num p) nonce (Some md) (ap_kdf p))).
  { intros p md (N & K) Hmd nonce. split; [cbn [a_keynum]; lia|]. split; [|exact K]. cbn [a_mode]. intros z [= <-].
    apply mode_fits in Hmd. change (2 ^ 64) with 18446744073709551616. unfold fits_mode in Hmd. intuition lia. }
  unfold manifest_of_node in Hm. destruct (op_enc o) as [|a|i].
  - subst m. apply G. split; [discriminate|exact Hn].
  - destruct Hm as (nonce & Hm). apply aead_create_ok in Hm as (md & ct & tag & Hmd & _ & -> & _). apply G.
    split; [|exact I]. intros c [= <-]. cbn [WireSpec.ctx_wf]. auto.
  - destruct Hm as (inc & nonce & Hm). apply oaep_create_ok in Hm as (md & ct & tag & Hmd & _ & ->).
    destruct G as (m' & E & ->).
    + split; [|exact I]. intros c [= <-]. cbn [WireSpec.ctx_wf]. split; [auto|]. intros wr Hwr.
      destruct inc; [|discriminate]. destruct (HW i eq_refl _ Hwr) as (key & seed & C). apply wrapper_create_ok in C as (? & _ & _ & _ & X & _).
      intros z Hz. rewrite X in Hz. injection Hz as <-. reflexivity.
    + eexists. split; [exact E|]. unfold man_norm. cbn [m_ctx m_node m_tag option_map ctx_norm mnode_norm]. do 3 f_equal.
      destruct inc; [|reflexivity]. destruct (oi_wrapper i) as [wr|] eqn:Ewr; [|reflexivity]. cbn [option_map]. f_equal.
      destruct (HW i eq_refl wr Ewr) as (key & seed & C). apply wrapper_create_ok in C as (? & _ & _ & X & _).
      unfold wrapper_norm. rewrite X. destruct wr; cbn in *. congruence.
Qed.

(* the decryptors after the root manifest has been opened *)
Definition warm (d : option (dcache P)) : Prop :=
  match op_enc o with
  | ENone => True
  | EAead a => exists d' q, d = Some d' /\ dc_num P d' = Some (ap_num a) /\ dc_last P d' = DAead q /\ equiv q a
  | EOaep i => let p := oi_params i in exists d' q, d = Some d' /\ dc_num P d' = Some (ap_num p) /\ dc_last P d' = DOaep /\
      get_aes_key P (dc_ks P d') (ap_num p) = Ok q /\ equiv q p /\ oc_ok (dc_oaep P d') p
  end.

Lemma oaep_warm i inc nonce nd m ks oc q : oaep_create_manifest P i inc nonce nd = Ok m -> node_wf nd ->
  get_aes_key P ks (ap_num (oi_params i)) = Ok q -> equiv q (oi_params i) -> oc_ok oc (oi_params i) ->
  exists oc', oaep_decrypt_manifest P ks oc m = (Ok (mkMan None (MNode (node_norm nd)) None), ks, oc') /\ oc_ok oc' (oi_params i).
Proof.
  intros Hm Hn Hk He Hoc. apply oaep_create_ok in Hm as (md & ct & tag & Hmd & Henc & ->).
  unfold oaep_decrypt_manifest; cbn [m_ctx]. set (w := if inc then oi_wrapper i else None) in *.
  unfold oaep_get_impl. set (a := mkAead _ _ _ _) in *. unfold ctx_okey. cbn [a_keynum a]. set (id := match w with Some _ => _ | None => _ end).
  assert (D : forall q, equiv q (oi_params i) -> decrypt_manifest_with P is_rsa_ctx q (mkMan (Some (CRsa a w)) (MEnc ct) (Some tag)) =
     Ok (mkMan None (MNode (node_norm nd)) None)).
  { intros z (Q1 & Q2 & Q3). eapply decrypt_of; try eassumption; reflexivity. }
  destruct (dict_get okey_eqb (id, ap_num (oi_params i)) oc) as [i0|] eqn:Eo.
  - exists oc. rewrite D by (eapply Hoc; exact Eo). auto.
  - unfold oimpl_create. cbn [a_keynum a]. rewrite Hk. cbn [oi_params]. eexists. rewrite D by exact He. split; [reflexivity|].
    apply oc_ok_set; assumption.
Qed.

(* the first manifest of a receiver with the RSA key only *)
Lemma oaep_cold i nonce nd m ks wr : oaep_create_manifest P i true nonce nd = Ok m -> node_wf nd ->
  params_ok (oi_params i) -> oi_wrapper i = Some wr -> has_unwrapper ks (oi_params i) wr ->
  exists q ks' oc', oaep_decrypt_manifest P ks [] m = (Ok (mkMan None (MNode (node_norm nd)) None), ks', oc') /\
    get_aes_key P ks' (ap_num (oi_params i)) = Ok q /\ equiv q (oi_params i) /\ oc_ok oc' (oi_params i).
Proof.
  intros Hm Hwf (Hn & _) Hwr (Hu & Hb & key & sk & seed & Hk & Hw & Hg).
  pose proof (wrapper_create_ok _ _ _ _ _ Hw) as (c & Hc & W1 & W2 & W3 & W4).
  apply oaep_create_ok in Hm as (md & ct & tag & Hmd & Henc & ->). rewrite Hwr in *. set (p := oi_params i) in *. set (a := mkAead _ _ _ _) in *.
  unfold oaep_decrypt_manifest; cbn [m_ctx]. unfold oaep_get_impl. cbn [dict_get]. unfold oimpl_create, ctx_okey. cbn [a_keynum a].
  destruct (get_aes_key P ks (ap_num p)) as [q|e] eqn:Eq; [exfalso; exact (Hu q eq_refl)|].
  unfold unwrap_params. rewrite Hg. cbn [bind has_private guard]. rewrite W1.
  destruct (C48_wrap_roundtrip P key sk seed p c a Ho) as (salt & Hs & Hd); auto.
  { intros z Hz. rewrite Forall_forall in Hb. auto. }
  { exists md. split; [apply mode_fits; exact Hmd|reflexivity]. }
  rewrite Hd. cbn [bind a_mode a]. rewrite create_aead_key_ok by (apply mode_fits; exact Hmd). cbn [bind a_keynum a_kdf a].
  pose proof Hc as Hc'. unfold wrap_create in Hc'. rewrite Hs in Hc'. inv_bind Hc'. inv_bind Hc'. apply uint32_ok in E0 as (R & _).
  unfold ap_make. cbn [ap_num ap_salt ap_kdf_salt optM bind].
  destruct (int_tlv_intro T_KEYNUM (ap_num p)) as [tk ->]; [unfold T_KEYNUM; lia|lia|]. cbn [bind].
  rewrite to_bytes4_intro by exact R. cbn [bind oi_params].
  set (p' := mkAP _ _ _ _ _). assert (He : equiv p' p) by (repeat split; cbn; auto).
  exists p'. do 2 eexists. split; [|split; [|split; [exact He|]]].
  - f_equal. f_equal. destruct He as (Q1 & Q2 & Q3). eapply decrypt_of; try eassumption; reflexivity.
  - unfold get_aes_key, add_aes_key. cbn [ks_aes dict_set dict_get ap_num p']. rewrite Z.eqb_refl. reflexivity.
  - intros id i0 Hi. cbn [dict_set dict_get] in Hi. destruct (okey_eqb _ _); [|discriminate]. injection Hi as <-. exact He.
Qed.

Lemma open_warm nd m m' : manifest_of_node o nd m -> node_wf nd ->
  match op_enc o with ENone => m' = mkMan None (MNode (node_norm nd)) None | _ => m' = m end ->
  forall s, warm (ts_dc s) -> exists m2 s', t_decrypt P m' s = (Ok m2, s') /\ m_node m2 = MNode (node_norm nd) /\ warm (ts_dc s').
Proof.
  intros Hm Hn Hm' s Hs. unfold manifest_of_node, warm in *. destruct (op_enc o) as [|a|i].
  - subst m'. eexists _, s. split; [reflexivity|]. split; [reflexivity|exact I].
  - subst m'. destruct Hm as (nonce & Hm). destruct Hs as (d & q & Ed & E1 & E2 & (Q1 & Q2 & Q3)).
    apply aead_create_ok in Hm as (md & ct & tag & Hmd & Henc & -> & _).
    unfold t_decrypt, is_encrypted. cbn [m_node m_ctx negb]. rewrite Ed. unfold dc_get. cbn [ctx_aead a_keynum]. rewrite E1, Z.eqb_refl, E2.
    unfold dc_decrypt, aead_decrypt_manifest. erewrite decrypt_of; try eassumption; try reflexivity.
    do 2 eexists. split; [reflexivity|]. split; [reflexivity|]. cbn [ts_dc]. exists d, q. repeat split; assumption.
  - subst m'. destruct Hm as (inc & nonce & Hm). destruct Hs as (d & q & Ed & E1 & E2 & Hk & He & Hoc).
    destruct (oaep_warm i inc nonce nd m _ _ q Hm Hn Hk He Hoc) as (oc' & D & Hoc').
    pose proof Hm as Hm0. apply oaep_create_ok in Hm0 as (md & ct & tag & Hmd & Henc & Em).
    unfold t_decrypt, is_encrypted. rewrite Em. cbn [m_node m_ctx negb]. rewrite Ed. unfold dc_get. cbn [ctx_aead a_keynum]. rewrite E1, Z.eqb_refl, E2.
    rewrite <- Em. unfold dc_decrypt. rewrite D.
    do 2 eexists. split; [reflexivity|]. split; [reflexivity|]. cbn [ts_dc]. eexists _, q. split; [reflexivity|]. cbn [dc_num dc_last dc_ks dc_oaep]. auto.
Qed.

Lemma open_cold rnd ks nd k m m' : can_open o ks -> root_manifest P rnd o nd k m -> node_wf nd ->
  match op_enc o with ENone => m' = mkMan None (MNode (node_norm nd)) None | _ => m' = m end ->
  forall s, ts_dc s = ts_dc (tst_new P ks) ->
  exists m2 s', t_decrypt P m' s = (Ok m2, s') /\ m_node m2 = MNode (node_norm nd) /\ warm (ts_dc s').
Proof.
  intros Hc Hm Hn Hm' s Hs. unfold can_open, root_manifest, warm in *. destruct (op_enc o) as [|a|i].
  - subst m'. eexists _, s. split; [reflexivity|]. split; [reflexivity|exact I].
  - subst m'. destruct Hc as (Hp & kk & -> & q & Hk & He). cbn [tst_new ts_dc] in Hs.
    apply aead_create_ok in Hm as (md & ct & tag & Hmd & Henc & -> & _).
    unfold t_decrypt, is_encrypted. cbn [m_node m_ctx negb]. rewrite Hs. unfold dc_get, dc_init. cbn [ctx_aead a_keynum dc_num dc_create dc_ks dc_oaep].
    rewrite Hk. cbn [bind]. destruct He as (Q1 & Q2 & Q3).
    unfold dc_decrypt, aead_decrypt_manifest. erewrite decrypt_of; try eassumption; try reflexivity.
    do 2 eexists. split; [reflexivity|]. split; [reflexivity|]. cbn [ts_dc]. eexists _, q. cbn [dc_num dc_last]. repeat split; assumption.
  - subst m'. destruct Hc as (Hp & HW & kk & -> & Hk). cbn [tst_new ts_dc] in Hs.
    assert (exists q ks' oc', oaep_decrypt_manifest P kk [] m = (Ok (mkMan None (MNode (node_norm nd)) None), ks', oc') /\
      get_aes_key P ks' (ap_num (oi_params i)) = Ok q /\ equiv q (oi_params i) /\ oc_ok oc' (oi_params i)) as (q & ks' & oc' & D & G1 & G2 & G3).
    { destruct Hk as [(q & Hk & He)|(wr & Hwr & Hu)]; [|eapply oaep_cold; eassumption].
      destruct (oaep_warm i true (rnd k) nd m kk [] q Hm Hn Hk He) as (oc' & D & Hoc'); [intros ? ? [=]|].
      exists q, kk, oc'. auto. }
    pose proof Hm as Hm0. apply oaep_create_ok in Hm0 as (md & ct & tag & Hmd & Henc & Em).
    unfold t_decrypt, is_encrypted. rewrite Em. cbn [m_node m_ctx negb]. rewrite Hs. unfold dc_get, dc_init. cbn [ctx_aead a_keynum dc_num dc_create dc_ks dc_oaep bind].
    rewrite <- Em. unfold dc_decrypt. cbn [dc_ks dc_oaep dc_num dc_last]. rewrite D.
    do 2 eexists. split; [reflexivity|]. split; [reflexivity|]. cbn [ts_dc]. eexists _, q. split; [reflexivity|]. cbn [dc_num dc_last dc_ks dc_oaep]. auto.
Qed.
End Open.

(* ---------------- name constructors as sent ---------------- *)

Section Ctx.
Context (P : prims) (o : opts P) (nc : Z) (x : nctx) (Hc : nctx_create P o nc = Ok x).

(* where the parts of a schema come from *)
Definition made_of (s : schema) : Prop :=
  match op_type o with
  | Hashed => exists ls, s = SHash (Some ls) None /\ incl ls (locators o)
  | Prefixed => exists n, s = SPrefix n None None /\ In n [op_name o; op_mprefix o; op_dprefix o]
  | Segmented => exists n t, s = SSeg n (Some t) None None /\ In n [op_name o; op_mprefix o; op_dprefix o]
  end.
Lemma schema_create_of n l nm b i :
  schema_create P o n l nm b = Ok i ->
  match op_type o with Hashed => exists ls, l = Some ls /\ incl ls (locators o) | _ => In nm [op_name o; op_mprefix o; op_dprefix o] end ->
  im_nc i = n /\ impl_make n (im_schema i) = Ok i /\ made_of (im_schema i).
Proof.
  unfold schema_create, made_of. intros H S. destruct (op_type o); pose proof H as H'; apply impl_make_eq in H'; subst i; cbn [im_nc im_schema] in *;
    (split; [reflexivity|split; [exact H|]]).
  - destruct S as (ls & -> & S). exists ls. auto.
  - exists nm. auto.
  - exists nm. eexists. auto.
Qed.
Lemma ctx_impls i : i = nx_man x \/ i = nx_data x ->
  nc <= im_nc i <= nc + 1 /\ impl_make (im_nc i) (im_schema i) = Ok i /\ made_of (im_schema i).
Proof.
  set (src := fun (l : option (list link)) (nm : option name) => match op_type o with Hashed => exists ls, l = Some ls /\ incl ls (locators o) | _ => In nm [op_name o; op_mprefix o; op_dprefix o] end).
  assert (T : forall ml dl mn dn, src ml mn -> src dl dn -> nctx_two P o nc ml dl mn dn = Ok x -> i = nx_man x \/ i = nx_data x ->
    nc <= im_nc i <= nc + 1 /\ impl_make (im_nc i) (im_schema i) = Ok i /\ made_of (im_schema i)).
  { unfold nctx_two. intros ml dl mn dn S1 S2 H1 Hi. mon. subst x. cbn [nx_two nx_man nx_data] in *.
    apply schema_create_of in E; [|exact S1]. apply schema_create_of in E0; [|exact S2].
    destruct Hi as [->| ->]; [destruct E as (-> & ? & ?)|destruct E0 as (-> & ? & ?)]; (split; [lia|auto]). }
  assert (O : forall l nm, src l nm -> nctx_one P o nc l nm = Ok x -> i = nx_man x \/ i = nx_data x ->
    nc <= im_nc i <= nc + 1 /\ impl_make (im_nc i) (im_schema i) = Ok i /\ made_of (im_schema i)).
  { unfold nctx_one. intros l nm S1 H1 Hi. mon. subst x. cbn [nx_two nx_man nx_data] in *.
    apply schema_create_of in E; [|exact S1]. destruct Hi as [->| ->]; destruct E as (-> & ? & ?); (split; [lia|auto]). }
  pose proof Hc as H. unfold nctx_create in H. unfold src in *. clear src. destruct (op_type o) eqn:Ty.
  - unfold create_hashed in H. mon.
    assert (forall ls, incl (match ls with None => [mkLink (op_name o) None None] | Some l => l end) (locators o) ->
      exists l', Some (match ls with None => [mkLink (op_name o) None None] | Some l => l end) = Some l' /\ incl l' (locators o)) as X.
    { intros ls Hl. eauto. }
    assert (incl (match op_mlocs o with None => [mkLink (op_name o) None None] | Some l => l end) (locators o)) as X1.
    { unfold locators. intros z Hz. destruct (op_mlocs o) as [l|]; [|destruct Hz as [<-|[]]; now left]. right. apply in_app_iff. auto. }
    assert (incl (match op_dlocs o with None => [mkLink (op_name o) None None] | Some l => l end) (locators o)) as X2.
    { unfold locators. intros z Hz. destruct (op_dlocs o) as [l|]; [|destruct Hz as [<-|[]]; now left]. right. apply in_app_iff. auto. }
    intros Hi. destruct (links_eq _ _) in H; [eapply O; [|exact H|exact Hi]|eapply T; [| |exact H|exact Hi]]; auto.
  - unfold prefixes in H. unfold create_named in H. mon.
    assert (In (match op_mprefix o with None => op_name o | p => p end) [op_name o; op_mprefix o; op_dprefix o]) as X1 by (destruct (op_mprefix o); cbn; auto).
    assert (In (match op_dprefix o with None => op_name o | p => p end) [op_name o; op_mprefix o; op_dprefix o]) as X2 by (destruct (op_dprefix o); cbn; auto).
    intros Hi. destruct a; [eapply O; [|exact H|exact Hi]|eapply T; [| |exact H|exact Hi]]; assumption.
  - unfold create_segmented, prefixes, create_named in H. apply bind_ok in H as (? & _ & H).
    apply bind_ok in H as (e & E & H). rewrite E in H. destruct e; [discriminate H|]. cbn [negb guard bind] in H.
    assert (In (match op_mprefix o with None => op_name o | p => p end) [op_name o; op_mprefix o; op_dprefix o]) as X1 by (destruct (op_mprefix o); cbn; auto).
    assert (In (match op_dprefix o with None => op_name o | p => p end) [op_name o; op_mprefix o; op_dprefix o]) as X2 by (destruct (op_dprefix o); cbn; auto).
    intros Hi. eapply T; [| |exact H|exact Hi]; assumption.
Qed.

Lemma plain_norm n : plain_name n -> option_map name_norm n = n.
Proof.
  intros H. destruct n as [n|]; [|reflexivity]. cbn [option_map]. f_equal. apply kinds_norm. specialize (H n eq_refl).
  rewrite Forall_forall in H. exact H.
Qed.
Lemma ctx_readback i : plain_prefixes o -> i = nx_man x \/ i = nx_data x -> readback i.
Proof.
  intros Hp Hi id. apply ctx_impls in Hi as (_ & _ & M). unfold made_of, plain_prefixes in *.
  assert (N : forall n, plain_name (op_name o) /\ plain_name (op_mprefix o) /\ plain_name (op_dprefix o) ->
    In n [op_name o; op_mprefix o; op_dprefix o] -> option_map name_norm n = n).
  { intros n (N1 & N2 & N3) Hn. apply plain_norm. destruct Hn as [<-|[<-|[<-|[]]]]; assumption. }
  destruct (op_type o).
  - destruct M as (ls & E & _). unfold impl_name. cbn [im_schema]. rewrite E. reflexivity.
  - destruct M as (n & E & Hn). unfold impl_name. cbn [im_schema]. rewrite E. cbn [schema_norm]. rewrite N by assumption. reflexivity.
  - destruct M as (n & t & E & Hn). unfold impl_name. cbn [im_schema]. rewrite E. cbn [schema_norm]. rewrite N by assumption. reflexivity.
Qed.
Lemma schema_count_norm s : schema_count (schema_norm s) = schema_count s.
Proof. destruct s as [[l|] ?|? [l|] ?|? ? [l|] ?]; cbn; unfold locs_norm, zlen; rewrite ?map_length; reflexivity. Qed.
Lemma mapM_unit {A} (f : A -> res unit) l : (forall a, In a l -> f a = Ok tt) -> exists r, mapM f l = Ok r.
Proof.
  induction l as [|a l IH]; intros H; cbn [mapM]; [eauto|]. rewrite (H a (or_introl eq_refl)). cbn [bind].
  destruct IH as (r & ->); [intros b Hb; apply H; now right|]. cbn [bind]. eauto.
Qed.
Lemma impl_make_nc n s i : impl_make n s = Ok i -> 0 <= n.
Proof.
  unfold impl_make. intros H. apply bind_ok in H as (t & H & _). unfold ncdef_tlv in H. cbn [nd_id wire_opt] in H.
  apply bind_ok in H as (a & H & _). inv_bind H. apply int_tlv_ok in E. apply E.
Qed.
Lemma ctx_def_ok i : nc + 1 < 2 ^ 64 -> printable_locators o -> i = nx_man x \/ i = nx_data x -> def_ok (ncdef_norm (impl_ncdef i)).
Proof.
  intros Hn Hp Hi. apply ctx_impls in Hi as (B & M & S). exists (im_nc i), (schema_norm (im_schema i)).
  split; [reflexivity|]. split; [reflexivity|]. split.
  { apply (int_text_ok _ tt), int_text_small. pose proof (impl_make_nc _ _ _ M). lia. } split.
  - unfold made_of, printable_locators in *. destruct (op_type o).
    + destruct S as (ls & -> & Hls). cbn [schema_norm option_map schema_repr].
      destruct (mapM_unit link_repr (locs_norm ls)) as (r & ->); [|reflexivity].
      intros k Hk. unfold locs_norm in Hk. apply in_map_iff in Hk as (l & <- & Hl). unfold link_repr, link_norm. cbn [l_name].
      destruct (l_name l) as [n|] eqn:En; [|reflexivity]. cbn [option_map].
      destruct (mapM_unit comp_repr (name_norm n)) as (r & ->); [|reflexivity].
      intros c Hcm. unfold name_norm in Hcm. apply in_map_iff in Hcm as (c' & <- & Hc'). unfold comp_repr. cbn [c_type c_kind c_val].
      destruct (Hp l n c' (Hls l Hl) En Hc') as [U V]. destruct (c_type c' =? T_NAMESEGMENT) eqn:Et; [rewrite U by lia; reflexivity|].
      destruct ((c_type c' =? T_CHUNKID) || (c_type c' =? T_MANIFESTID)) eqn:Ec; [|reflexivity]. apply int_text_ok, V. lia.
    + destruct S as (n & -> & _). reflexivity.
    + destruct S as (n & t & -> & _). reflexivity.
  - unfold impl_make in *. change (mkNcDef (Some (im_nc i)) (Some (schema_norm (im_schema i)))) with (ncdef_norm (impl_ncdef i)).
    rewrite ncdef_tlv_norm. unfold impl_ncdef. inv_bind M. cbn [bind]. inv_bind M.
    rewrite schema_count_norm. destruct (im_schema i); cbn [schema_norm]; rewrite E; cbn [bind]; rewrite E0; reflexivity.
Qed.
Lemma ctx_scoped : scoped x [map ncdef_norm (nctx_defs x)].
Proof.
  pose proof (nctx_create_wf _ _ _ _ Hc) as Hx. unfold ctx_wf in Hx. intros i Hi. unfold nctx_defs.
  destruct (nx_two x).
  - destruct Hx as [Hne _]. cbn [map resolve last_def ncdef_norm impl_ncdef nd_id]. destruct Hi as [->| ->].
    + replace (im_nc (nx_data x) =? im_nc (nx_man x)) with false by lia. rewrite Z.eqb_refl. reflexivity.
    + rewrite Z.eqb_refl. reflexivity.
  - destruct Hx as [E _]. assert (i = nx_man x) as -> by (destruct Hi; congruence).
    cbn [map resolve last_def ncdef_norm impl_ncdef nd_id]. rewrite Z.eqb_refl. reflexivity.
Qed.
Lemma ctx_defs_ok : nc + 1 < 2 ^ 64 -> printable_locators o -> Forall def_ok (map ncdef_norm (nctx_defs x)).
Proof.
  intros Hn Hp. apply Forall_forall. intros d Hd. apply in_map_iff in Hd as (d' & <- & Hd). unfold nctx_defs in Hd.
  destruct (nx_two x); repeat (destruct Hd as [<-|Hd]; [apply ctx_def_ok; auto|]); destruct Hd.
Qed.
End Ctx.

(* ---------------- integers fit their fields ---------------- *)

Section Bounds.
Context (P : prims) (clog : Z -> Z -> Z -> Z) (rnd : nat -> bytes) (now : fl) (o : opts P) (nc : Z) (data : bytes)
  (Hmax : op_max o <= 2 ^ 24) (Hnc : nc + 1 < 2 ^ 64).
Context (k k' : nat) (x : nctx) (ps : Z) (l : list bytes) (pkts : list packet) (meta : list cmeta) (num : Z) (r : optres)
  (SU : setup P clog rnd now o nc data k k' x ps l pkts meta num r).
Let v := env_of P o x meta r.

Lemma count_bound : zlen meta <= 16777216 /\ zlen meta = zlen l.
Proof.
  pose proof (emits_count P o _ _ _ _ _ (su_emits _ _ _ _ _ _ _ _ _ _ _ _ _ _ _ _ SU) (su_first _ _ _ _ _ _ _ _ _ _ _ _ _ _ _ _ SU)) as (H & L).
  pose proof (su_first _ _ _ _ _ _ _ _ _ _ _ _ _ _ _ _ SU) as F. unfold MAX_CHUNK_ID in H, F. pose proof (su_len _ _ _ _ _ _ _ _ _ _ _ _ _ _ _ _ SU). unfold zlen. split; [unfold zlen in H; lia|lia].
Qed.
Lemma size_bound : zlen data < 2 ^ 64 /\ zlen data = zsum (map cm_bytes meta) /\ Forall (fun c => 0 <= cm_bytes c) meta.
Proof.
  pose proof Hmax as _. destruct count_bound as (C & E).
  pose proof (emits_sizes _ _ _ _ _ _ _ (su_emits _ _ _ _ _ _ _ _ _ _ _ _ _ _ _ _ SU) (su_len _ _ _ _ _ _ _ _ _ _ _ _ _ _ _ _ SU)) as (S & _).
  pose proof (su_cut _ _ _ _ _ _ _ _ _ _ _ _ _ _ _ _ SU) as (Hd & _).
  assert (Hf : Forall (fun b => zlen b <= 65536) l).
  { pose proof (su_emits _ _ _ _ _ _ _ _ _ _ _ _ _ _ _ _ SU) as He. pose proof (su_len _ _ _ _ _ _ _ _ _ _ _ _ _ _ _ _ SU) as Hl.
    clear - He Hl. revert He Hl. generalize (first_num meta). revert pkts meta. induction l as [|b l' IH]; intros [|p ps'] [|c m] z He Hl; cbn [emits length] in *; try tauto; try lia; constructor.
    - destruct He as ((nm & w & h & _ & _ & _ & _ & _ & Lw & _ & _ & L16 & _) & _). unfold data_len in Lw.
      assert (0 <= name_len nm) by (unfold name_len; destruct nm as [nm|]; [destruct (name_tlv nm) as [tn|]; [pose proof (tlv_len_ge tn)|]|]; lia).
      assert (0 <= exp_len (op_dexp o)) by (unfold exp_len; destruct (op_dexp o); lia).
      match type of Lw with context [fcid_len ?f] => assert (0 <= fcid_len f) by (unfold fcid_len; destruct f as [z'|]; [pose proof (int_len_pos z')|]; lia) end. lia.
    - destruct He as (_ & He). eapply IH; [exact He|lia]. }
  assert (zlen data = zsum (map zlen l) /\ zlen data <= 65536 * zlen l) as (D1 & D2).
  { rewrite <- Hd. clear - Hf. induction Hf as [|b l Hb _ IH]; [cbn; lia|]. cbn [concat map].
    rewrite zlen_app, zsum_cons, zlen_cons. lia. }
  split; [|split].
  - change (2 ^ 64) with 18446744073709551616. lia.
  - rewrite S. exact D1.
  - clear - S. revert l S. induction meta as [|c m IH]; intros [|b l] S; try discriminate; constructor.
    + cbn [map] in S. injection S as -> _. apply zlen_nonneg.
    + cbn [map] in S. injection S as _ S. eapply IH. exact S.
Qed.
Lemma bytes_bound lo hi : 0 <= lo <= hi -> hi <= zlen meta -> 0 <= chunk_bytes P v (zrange lo hi) < 2 ^ 64.
Proof.
  destruct size_bound as (B & E & F). intros Hl Hh.
  assert (N : forall a b, 0 <= a -> b <= zlen meta -> 0 <= chunk_bytes P v (zrange a b)).
  { intros a b Ha Hb. unfold chunk_bytes. assert (forall i, In i (zrange a b) -> 0 <= cm_bytes (chunk_meta P v i)) as H.
    { intros i Hi. apply zrange_in in Hi. rewrite Forall_forall in F. apply F. apply nth_In. cbn [v env_of te_meta]. unfold zlen in *. lia. }
    induction (zrange a b) as [|z zs IH]; [reflexivity|]. cbn [map]. rewrite zsum_cons.
    pose proof (H z ltac:(now left)). pose proof (IH ltac:(intros; apply H; now right)). lia. }
  pose proof (chunk_bytes_all P v (zlen data) E) as A. change (zlen (te_meta v)) with (zlen meta) in A.
  rewrite (zrange_app 0 lo (zlen meta)), (zrange_app lo hi (zlen meta)), !chunk_bytes_app in A by lia.
  pose proof (N 0 lo ltac:(lia) ltac:(lia)). pose proof (N lo hi ltac:(lia) ltac:(lia)). pose proof (N hi (zlen meta) ltac:(lia) ltac:(lia)). lia.
Qed.
Lemma nc_bound i : i = nx_man x \/ i = nx_data x -> im_nc i < 2 ^ 64.
Proof. intros Hi. apply (ctx_impls P o nc x (su_ctx _ _ _ _ _ _ _ _ _ _ _ _ _ _ _ _ SU)) in Hi as (Hi & _). lia. Qed.
Lemma u64_if b z : z < 2 ^ 64 -> u64o (opt_if b z).
Proof. intros H n E. destruct b; [|discriminate]. injection E as <-. exact H. Qed.
Lemma u64_some z : z < 2 ^ 64 -> u64o (Some z).
Proof. intros H n [= <-]. exact H. Qed.
Lemma u64_none : u64o None.
Proof. intros n [=]. Qed.
Lemma num_bound i : 0 <= i < zlen meta -> cm_num (chunk_meta P v i) < 2 ^ 64.
Proof.
  intros Hi. unfold v. rewrite (emits_nums P o x meta r l pkts (su_emits _ _ _ _ _ _ _ _ _ _ _ _ _ _ _ _ SU) i Hi).
  pose proof (su_first _ _ _ _ _ _ _ _ _ _ _ _ _ _ _ _ SU) as F.
  pose proof (emits_count P o _ _ _ _ _ (su_emits _ _ _ _ _ _ _ _ _ _ _ _ _ _ _ _ SU) F) as (C & _). unfold MAX_CHUNK_ID in *.
  change (2 ^ 64) with 18446744073709551616. lia.
Qed.
Lemma size_data_wf b d : b < 2 ^ 64 -> size_data P v b = Some d -> nd_wf d.
Proof.
  intros Hb. unfold size_data, opt_if. destruct (op_nsize _); [|discriminate]. intros [= <-].
  split; [apply u64_some; exact Hb|constructor].
Qed.

Lemma tree_node_wf lv u : wf P rnd now v lv u ->
  (forall w, In w (subtrees u) -> mi_id (top w) < 2 ^ 64) -> node_wf (mi_node (top u)).
Proof.
  pose proof (nctx_create_wf _ _ _ _ (su_ctx _ _ _ _ _ _ _ _ _ _ _ _ _ _ _ _ SU)) as Hx.
  intros W Hid. destruct u as [i lo hi|i lo hi kids]; cbn [top].
  - apply wf_leaf in W as (_ & _ & L & L' & _ & ->). change (zlen (te_meta v)) with (zlen meta) in L'.
    pose proof (bytes_bound lo hi ltac:(lia) L') as B. unfold leaf_node. split; cbn [n_data n_groups].
    + intros d. apply size_data_wf. lia.
    + constructor; [|constructor]. intros g [= <-]. unfold gd_wf. cbn [gd_subtree_size gd_leaf_size gd_nc_id gd_start].
      split; [apply u64_if; lia|]. split; [apply u64_if; lia|]. split; [apply u64_some, nc_bound; auto|apply u64_if, num_bound; lia].
  - apply wf_inner in W as (l' & -> & _ & _ & L & (e & L' & Ee) & _ & Hk & _ & -> & _ & WK). change (zlen (te_meta v)) with (zlen meta) in L'.
    pose proof (bytes_bound lo hi ltac:(lia) ltac:(lia)) as B. pose proof (bytes_bound hi e ltac:(lia) ltac:(lia)) as B2.
    pose proof (bytes_bound lo e ltac:(lia) ltac:(lia)) as B3. rewrite (zrange_app lo hi e), chunk_bytes_app in B3 by lia.
    assert (kids_bytes P v kids = 0 \/ kids_bytes P v kids = chunk_bytes P v (zrange hi e)) as Kb.
    { unfold kids_bytes. destruct (op_nsize _); [right|now left]. rewrite <- Ee. clear. induction kids as [|a ks IH]; [reflexivity|].
      cbn [map flat_map]. now rewrite chunk_bytes_app, zsum_cons, IH. }
    unfold inner_node. split; cbn [n_data n_groups].
    + intros d. apply size_data_wf. lia.
    + destruct (nx_two _); [constructor; [|constructor; [|constructor]]|constructor; [|constructor]]; intros g [= <-]; unfold gd_wf; cbn [gd_subtree_size gd_leaf_size gd_nc_id gd_start].
      * split; [apply u64_if; lia|]. split; [apply u64_if; lia|]. split; [apply u64_some, nc_bound; auto|apply u64_if, num_bound; lia].
      * split; [apply u64_if; lia|]. split; [apply u64_if; reflexivity|]. split; [apply u64_some, nc_bound; auto|]. apply u64_if.
        destruct kids as [|kd ks]; [congruence|]. cbn [first_id]. apply Hid. cbn [subtrees flat_map]. right. apply in_app_iff. left.
        destruct kd; now left.
      * split; [apply u64_if; lia|]. split; [apply u64_if; lia|]. split; [apply u64_some, nc_bound; auto|apply u64_none].
Qed.

Lemma id_in_level t : forall w, In w (subtrees t) -> In (mi_id (top w)) (ids_at (mi_level (top w)) t).
Proof.
  induction t as [i lo hi|i lo hi kids IH] using tree_ind2; intros w Hw; cbn [subtrees] in Hw.
  - destruct Hw as [<-|[]]. cbn [top ids_at]. rewrite Z.eqb_refl. now left.
  - cbn [ids_at]. apply in_app_iff. destruct Hw as [<-|Hw]; [left; cbn [top]; rewrite Z.eqb_refl; now left|right].
    apply in_flat_map in Hw as (kd & Hk & Hw). apply in_flat_map. exists kd. split; [assumption|]. rewrite Forall_forall in IH. now apply IH.
Qed.
Lemma id_bound out np s lv t : result P rnd now v out k' np s lv t -> forall w, In w (subtrees t) -> mi_id (top w) < 2 ^ 64.
Proof.
  intros R w Hw. pose proof (su_usable _ _ _ _ _ _ _ _ _ _ _ _ _ _ _ _ SU) as U. fold v in U.
  apply id_in_level in Hw. apply (ids_range P rnd now v out k' np s lv t U R) in Hw as (Hl & _ & Hi).
  destruct U as (_ & Hm & Hh & _ & Hf & _). eapply Z.lt_trans; [exact Hi|]. eapply Z.le_lt_trans; [apply full_mono|].
  - exact Hm.
  - instantiate (1 := Z.to_nat (te_h v + 1)). lia.
  - change (2 ^ 64) with 18446744073709551616. change (2 ^ 53) with 9007199254740992 in Hf. lia.
Qed.
Lemma all_nodes_wf out np s lv t : result P rnd now v out k' np s lv t ->
  Forall (fun w => node_wf (mi_node (top w))) (subtrees t).
Proof.
  intros R. apply Forall_forall. intros w Hw.
  destruct (wf_sub P rnd now v t lv (rs_wf _ _ _ _ _ _ _ _ _ _ R) w Hw) as (l' & _ & W). eapply tree_node_wf; [exact W|].
  intros u Hu. eapply id_bound; [exact R|]. eapply subtrees_trans; eassumption.
Qed.
Lemma root_node_wf h : node_wf (root_node o x (zlen data) h).
Proof.
  destruct size_bound as (B & _). unfold root_node. split; cbn [n_data n_groups].
  - intros d [= <-]. split; cbn [nd_size nd_ncdefs].
    + unfold keep. destruct (op_nsize o); [apply u64_some; exact B|apply u64_none].
    + apply Forall_forall. intros d Hd. unfold nctx_defs in Hd.
      destruct (nx_two x); repeat (destruct Hd as [<-|Hd]; [apply u64_some, nc_bound; auto|]); destruct Hd.
  - constructor; [|constructor]. intros g [= <-]. unfold gd_wf. cbn [gd_subtree_size gd_leaf_size gd_nc_id gd_start].
    split; [unfold keep; destruct (op_gsize o); [apply u64_some; exact B|apply u64_none]|].
    split; [apply u64_none|]. split; [apply u64_some, nc_bound; auto|]. destruct (uses_name_id _); [apply u64_some; reflexivity|apply u64_none].
Qed.
End Bounds.

(* ---------------- the whole traversal ---------------- *)

Lemma map_piece l : forall n, n = zlen l -> map (piece l) (zrange 0 n) = l.
Proof.
  intros n ->. unfold piece, zrange, zlen. rewrite Z.sub_0_r, Nat2Z.id.
  assert (X : forall (k : nat) (pre : list bytes), length pre = k ->
    map (fun i => nth (Z.to_nat i) (pre ++ l) []) (zseq (Z.of_nat k) (length l)) = l).
  { induction l as [|a ms IH]; intros k pre Hk; [reflexivity|]. cbn [length zseq map]. f_equal.
    - rewrite Nat2Z.id, app_nth2 by lia. now rewrite Hk, Nat.sub_diag.
    - replace (Z.of_nat k + 1) with (Z.of_nat (S k)) by lia.
      specialize (IH (S k) (pre ++ [a])). rewrite <- app_assoc in IH. cbn [app] in IH. apply IH.
      rewrite app_length. cbn [length]. lia. }
  apply (X 0%nat []). reflexivity.
Qed.

Fixpoint depth_visited t : (depth t <= length (visited t))%nat.
Proof.
  destruct t as [p n kids st]. cbn [depth visited length]. enough (fold_right (fun k m => Nat.max (depth k) m) O kids <= length (flat_map visited kids))%nat by lia.
  induction kids as [|k kids IH]; [cbn; lia|]. cbn [fold_right flat_map]. rewrite app_length. pose proof (depth_visited k). lia.
Qed.

Section Whole.
Context (P : prims) (Ha : aead_correct P) (Ho : oaep_correct P) (clog : Z -> Z -> Z -> Z) (rnd : nat -> bytes) (now : fl)
  (o : opts P) (nc : Z) (data : bytes) (Hmax : op_max o <= 2 ^ 24) (Hnc : nc + 1 < 2 ^ 64).
Context (k k' : nat) (x : nctx) (ps : Z) (l : list bytes) (pkts : list packet) (meta : list cmeta) (num : Z) (r : optres)
  (SU : setup P clog rnd now o nc data k k' x ps l pkts meta num r).
Let v := env_of P o x meta r.
Context (out : list packet) (np : node * packet) (b : bst) (lv : nat) (t : tree)
  (RS : result P rnd now v out k' np b lv t)
  (k1 k2 : nat) (root : packet) (RP : root_packet P rnd now o x (zlen data) (mi_pkt (top t)) k1 = (Ok root, k2)).
Context (get : option name -> option hashv -> res packet) (ks : option (keystore P)).
Hypothesis Hplain : plain_prefixes o.
Hypothesis Hprint : printable_locators o.
Hypothesis Hopen : can_open o ks.

Lemma enc_ok : (forall i, op_enc o = EOaep i -> forall wr, oi_wrapper i = Some wr ->
    exists key seed, wrapper_create P key seed (oi_params i) = Ok wr) /\
  match op_enc o with ENone => True | EAead a => params_ok a | EOaep i => params_ok (oi_params i) end.
Proof.
  unfold can_open in Hopen. split.
  - intros i E. rewrite E in Hopen. apply Hopen.
  - destruct (op_enc o); [exact I|apply Hopen|apply Hopen].
Qed.
Lemma tree_opens nd kk nm p q : carries P rnd v nd kk nm p -> node_wf nd -> copy ks q p ->
  opened P (warm P o) q (node_norm nd).
Proof.
  intros (m & w & Hm & Hw & _ & Hb & _) Hn (c & c' & Hc & Hc' & Ht & Hp & _). rewrite Hb in Hc. injection Hc as <-.
  cbn [co_ptype co_payload] in Ht, Hp. destruct enc_ok as (E1 & E2).
  assert (manifest_of_node o nd m) as Hm'.
  { unfold manifest_for in Hm. unfold manifest_of_node. change (te_opt v) with o in Hm. destruct (op_enc o); eauto. }
  destruct (received P o nd m w E1 E2 Hm' Hn Hw) as (m' & D & Em).
  exists c', m'. split; [exact Hc'|]. split; [exact Ht|]. split.
  - unfold man_from_content. rewrite Ht, Hp. exact D.
  - intros s Hs. eapply open_warm; eassumption.
Qed.

(* the pointer of the root manifest *)
Definition root_item (h : hashv) : hiv := mkHiv (im_nc (nx_man x)) h (opt_if (uses_name_id (nx_man x)) 0).
Let defs := [map ncdef_norm (nctx_defs x)].
Hypothesis Har : available get ks root.

(* the root manifest is opened; the rest is up to its pointer *)
Lemma root_step hr h f kids stop : packet_hash (pr_sha P) root = Ok hr -> packet_hash (pr_sha P) (mi_pkt (top t)) = Ok h ->
  walks get (validate_packet P ks) true (opened P (warm P o)) (refused P (warm P o)) defs [root_item h] None kids stop ->
  (fold_right (fun k n => Nat.max (depth k) n) O kids <= f)%nat ->
  exists s', traverse P get true (S f) (op_name o) (Some hr) (tst_new P ks) = (outcome stop, s') /\
    ts_out s' = flat_map data_of (flat_map visited kids) /\ ts_count s' = 1 + zlen (flat_map visited kids).
Proof.
  intros Hhr Hh Ws Hf. destruct enc_ok as (E1 & E2).
  pose proof (su_ctx _ _ _ _ _ _ _ _ _ _ _ _ _ _ _ _ SU) as Hctx.
  destruct (Har hr Hhr) as (q & Hq & HQ).
  apply root_inv in RP as (h' & m & w & Hh' & Hm & Hw & _ & _ & Hb & _). rewrite Hh in Hh'. injection Hh' as <-.
  destruct HQ as (c & c' & Hc & Hc' & Ht & Hp & Hv). rewrite Hb in Hc. injection Hc as <-. cbn [co_ptype co_payload] in Ht, Hp.
  pose proof (root_node_wf P clog rnd now o nc data Hmax Hnc k k' x ps l pkts meta num r SU h) as Hn.
  assert (manifest_of_node o (root_node o x (zlen data) h) m) as Hm'.
  { unfold root_manifest in Hm. unfold manifest_of_node. destruct (op_enc o); eauto. }
  destruct (received P o _ m w E1 E2 Hm' Hn Hw) as (m' & D & Em).
  unfold traverse, sbind at 1, lift. unfold body_name in Hq. rewrite Hb in Hq. cbn [co_name] in Hq. rewrite Hq.
  unfold sbind at 1, validate, sbind at 1, sget, lift.
  assert (ts_keystore P (tst_new P ks) = ks) as Ek by (destruct ks; reflexivity). rewrite Ek, Hv.
  cbn [preorder]. unfold sbind at 1, smod.
  set (s0 := mkTs (ts_count (tst_new P ks) + 1) (ts_out (tst_new P ks)) (ts_dc (tst_new P ks))).
  rewrite Hc', Ht. change (PT_MANIFEST =? PT_MANIFEST) with true. cbv beta iota.
  unfold sbind at 1, lift, man_from_content. rewrite Ht, Hp. change (PT_MANIFEST =? PT_MANIFEST) with true. cbn [guard bind]. rewrite D.
  destruct (open_cold P o Ha Ho rnd ks _ _ m m' Hopen Hm Hn Em s0 eq_refl) as (m2 & s1 & Hd & Hn2 & Hw1).
  unfold sbind at 1. rewrite Hd. apply t_decrypt_sound in Hd as (C1 & O1 & K1 & _).
  unfold sbind at 1, lift, update_nc_cache. rewrite Hn2. cbn [node_norm root_node n_data option_map nd_norm nd_ncdefs].
  destruct (update_ok [] (map ncdef_norm (nctx_defs x)) [] cache_of_nil (ctx_defs_ok P o nc x Hctx Hnc Hprint)) as (c1 & Ef & Cc).
  rewrite Ef. unfold man_hash_values. rewrite Hn2. cbn [node_norm root_node n_groups].
  assert (node_iter [mkHG (Some (mkGD (keep (op_gsize o) (Some (zlen data))) None None None (Some (im_nc (nx_man x)))
             (if uses_name_id (nx_man x) then Some 0 else None))) (Some [h])] = ([root_item h], None)) as Ei.
  { unfold root_item. cbn [node_iter hg_ptrs hg_data group_iter gd_nc_id]. unfold segment_id. cbn [gd_start].
    destruct (uses_name_id (nx_man x)); reflexivity. }
  rewrite Ei. clear Ei.
  destruct (proj2 (complete P get true ks (warm P o)) _ _ _ _ _ Ws f c1 s1) as (r2 & s2 & Hvis & (A1 & A2 & _) & _ & Hr2).
  { exact Hf. }
  { exact Cc. }
  { constructor; [apply (ctx_defs_ok P o nc x Hctx Hnc Hprint)|constructor]. }
  { unfold same_keys in *. rewrite K1. rewrite <- Ek. reflexivity. }
  { exact Hw1. }
  unfold sbind at 1. rewrite Hvis. exists s2. split; [|split].
  - destruct r2 as [u|e]; rewrite Hr2; reflexivity.
  - rewrite A2, O1. reflexivity.
  - rewrite A1, C1. cbn [s0 ts_count tst_new]. lia.
Qed.

Lemma facts h : packet_hash (pr_sha P) (mi_pkt (top t)) = Ok h ->
  impl_name (nx_man x) (Some (mi_id (top t))) = Ok (body_name (mi_pkt (top t))) /\ ctx_wf x.
Proof.
  intros Hh. pose proof (nctx_create_wf _ _ _ _ (su_ctx _ _ _ _ _ _ _ _ _ _ _ _ _ _ _ _ SU)) as Hx.
  pose proof (wf_faithful P rnd now v lv _ Hx (rs_wf _ _ _ _ _ _ _ _ _ _ RS)) as ((mt & wt & _ & _ & _ & Hbt & _) & Hnt & _).
  split; [|exact Hx]. unfold body_name. rewrite Hbt. exact Hnt.
Qed.

(* when the name the root manifest gives is the name of the top manifest *)
Lemma whole hr fuel : (uses_name_id (nx_man x) = true -> mi_id (top t) = 0) ->
  Forall (available get ks) (pkts ++ map mi_pkt (infos t)) ->
  packet_hash (pr_sha P) root = Ok hr -> (length (pkts ++ map mi_pkt (infos t) ++ [root]) <= fuel)%nat ->
  exists s', traverse P get true fuel (op_name o) (Some hr) (tst_new P ks) = (Ok tt, s') /\
    ts_out s' = l /\ ts_count s' = zlen (pkts ++ map mi_pkt (infos t) ++ [root]).
Proof.
  intros Hid Hav Hhr Hf. pose proof (su_ctx _ _ _ _ _ _ _ _ _ _ _ _ _ _ _ _ SU) as Hctx.
  pose proof (su_emits _ _ _ _ _ _ _ _ _ _ _ _ _ _ _ _ SU) as Hem.
  apply Forall_app in Hav as (Av1 & Av2).
  pose proof RP as RP'. apply root_inv in RP' as (h & _ & _ & Hh & _).
  destruct (facts h Hh) as (Hnt & Hx).
  pose proof (rs_wf _ _ _ _ _ _ _ _ _ _ RS) as W.
  assert (Forall (fun u => available get ks (mi_pkt (top u)) /\ node_wf (mi_node (top u))) (subtrees t)) as HS.
  { pose proof (all_nodes_wf P clog rnd now o nc data Hmax Hnc k k' x ps l pkts meta num r SU out np b lv t RS) as Nw.
    rewrite Forall_forall in Nw, Av2 |- *. intros u Hu. split; [|apply Nw; exact Hu]. apply Av2.
    apply in_map. apply (Permutation_in _ (Permutation_sym (infos_subtrees t))). apply in_map. exact Hu. }
  assert (available get ks (mi_pkt (top t))) as At by (destruct t; inversion HS; subst; tauto).
  destruct (At h Hh) as (qt & Hqt & HQt).
  pose proof (ctx_readback P o nc x Hctx _ Hplain (or_introl eq_refl)) as Rm.
  pose proof (ctx_readback P o nc x Hctx _ Hplain (or_intror eq_refl)) as Rd.
  pose proof (ctx_scoped P o nc x Hctx) as Sc.
  destruct (tree_walk P get ks true (warm P o) rnd now o x meta r l pkts Hx Hem Rm Rd Av1 tree_opens t lv
    defs qt W Sc HS HQt) as (pt & Ept & Wk & St & Dp & Dat & Cnt).
  assert (target get defs (root_item h) = Ok (pt_packet pt)) as Etg.
  { unfold root_item. replace (opt_if (uses_name_id (nx_man x)) 0) with (opt_if (uses_name_id (nx_man x)) (mi_id (top t)))
      by (unfold opt_if; destruct (uses_name_id (nx_man x)); [rewrite Hid by reflexivity|]; reflexivity).
    rewrite (find_target get x Hx Rm Rd _ (nx_man x) _ _ Sc (or_introl eq_refl) _ Hnt). rewrite Ept. exact Hqt. }
  assert (LEN : zlen (pkts ++ map mi_pkt (infos t) ++ [root]) = 1 + zlen (visited pt)).
  { rewrite Cnt, !zlen_app, zlen_map, (rs_chunks _ _ _ _ _ _ _ _ _ _ RS), zrange_len.
    change (zlen [root]) with 1. change (zlen (te_meta v)) with (zlen meta).
    pose proof (emits_count P o _ _ _ _ _ Hem (su_first _ _ _ _ _ _ _ _ _ _ _ _ _ _ _ _ SU)) as (_ & L). unfold zlen in *. lia. }
  destruct fuel as [|f]; [unfold zlen in LEN; lia|].
  destruct (root_step hr h f [pt] None Hhr Hh) as (s' & E & A1 & A2).
  { eapply WS_next; [exact Etg| |exact Wk|exact St|constructor]. rewrite Ept. destruct HQt as (? & ? & _ & _ & _ & _ & X). exact X. }
  { cbn [fold_right]. pose proof (depth_visited pt). unfold zlen in LEN. lia. }
  exists s'. split; [exact E|]. cbn [flat_map] in A1, A2. rewrite app_nil_r in A1, A2. split.
  - rewrite A1, Dat, (rs_chunks _ _ _ _ _ _ _ _ _ _ RS). apply map_piece. apply count_bound with (1 := SU).
  - rewrite A2, LEN. reflexivity.
Qed.

(* when it is not, and the reader checks names *)
Lemma whole_not hr h n fuel : uses_name_id (nx_man x) = true ->
  packet_hash (pr_sha P) root = Ok hr -> packet_hash (pr_sha P) (mi_pkt (top t)) = Ok h ->
  impl_name (nx_man x) (Some 0) = Ok n -> get n (Some h) = Err ValueError -> (0 < fuel)%nat ->
  exists s', traverse P get true fuel (op_name o) (Some hr) (tst_new P ks) = (Err ValueError, s') /\
    ts_out s' = [] /\ ts_count s' = 1.
Proof.
  intros Hu Hhr Hh Hn He Hf. destruct fuel as [|f]; [lia|].
  pose proof (su_ctx _ _ _ _ _ _ _ _ _ _ _ _ _ _ _ _ SU) as Hctx. destruct (facts h Hh) as (_ & Hx).
  pose proof (ctx_readback P o nc x Hctx _ Hplain (or_introl eq_refl)) as Rm.
  pose proof (ctx_readback P o nc x Hctx _ Hplain (or_intror eq_refl)) as Rd.
  destruct (root_step hr h f [] (Some ValueError) Hhr Hh) as (s' & E & A1 & A2).
  { apply WS_missing. unfold root_item.
    rewrite (find_target get x Hx Rm Rd _ (nx_man x) _ _ (ctx_scoped P o nc x Hctx) (or_introl eq_refl) _ Hn). exact He. }
  { cbn [fold_right]. lia. }
  exists s'. auto.
Qed.
End Whole.

(* ---------------- packets with the same hashed bytes ---------------- *)

Definition of_type (ty : Z) (l : list tlv) : list tlv := filter (fun t => t_type t =? ty) l.
Lemma of_type_opt {A} (enc : A -> res tlv) ty ty' a l : (forall a t, enc a = Ok t -> t_type t = ty) -> opt_tlvs enc a l ->
  of_type ty' l = if ty =? ty' then l else [].
Proof.
  intros He. destruct a as [a|]; cbn [opt_tlvs].
  - intros (t & E & ->). unfold of_type. cbn [filter]. rewrite (He _ _ E). now destruct (ty =? ty').
  - intros ->. now destruct (ty =? ty').
Qed.
Lemma of_type_app ty a b : of_type ty (a ++ b) = of_type ty a ++ of_type ty b.
Proof. apply filter_app. Qed.
Lemma opt_tlvs_same {A B} (enc : A -> res tlv) (dec : tlv -> res B) (nf : A -> B) a b l :
  (forall a t, enc a = Ok t -> dec t = Ok (nf a)) -> opt_tlvs enc a l -> opt_tlvs enc b l ->
  option_map nf a = option_map nf b.
Proof.
  intros Hd Ha Hb. destruct a as [a|], b as [b|]; cbn [opt_tlvs option_map] in *; try reflexivity.
  - destruct Ha as (t & E & ->), Hb as (t' & E' & X). injection X as <-. apply Hd in E, E'. congruence.
  - destruct Ha as (t & E & ->). discriminate.
  - destruct Hb as (t & E & ->). discriminate.
Qed.
Lemma option_map_id {A} (a : option A) : option_map (fun z => z) a = a.
Proof. now destruct a. Qed.

Lemma co_tlv_same c c' t : co_tlv c = Ok t -> co_tlv c' = Ok t ->
  option_map name_norm (co_name c) = option_map name_norm (co_name c') /\
  co_ptype c = co_ptype c' /\ co_payload c = co_payload c'.
Proof.
  intros H H'. apply co_tlv_ok in H as (_ & _ & l1 & l2 & l3 & l4 & l5 & O1 & O2 & O3 & O4 & O5 & F & E).
  apply co_tlv_ok in H' as (_ & _ & m1 & m2 & m3 & m4 & m5 & N1 & N2 & N3 & N4 & N5 & G & E').
  rewrite E in E'. apply wires_inj in E'; [|assumption..].
  assert (T : forall ty, of_type ty (l1 ++ l2 ++ l3 ++ l4 ++ l5) = of_type ty (m1 ++ m2 ++ m3 ++ m4 ++ m5)) by (intros; now rewrite E').
  assert (T1 : forall a t, name_tlv a = Ok t -> t_type t = T_NAME) by (intros a u X; apply name_tlv_ok in X; tauto).
  assert (T2 : forall a t, ts_tlv T_EXPIRY a = Ok t -> t_type t = T_EXPIRY) by (intros a u X; apply ts_tlv_ok in X; tauto).
  assert (T3 : forall a t, ptype_tlv a = Ok t -> t_type t = T_PAYLDTYPE) by (intros a u X; apply ptype_tlv_ok in X; tauto).
  assert (T4 : forall a t, payload_tlv a = Ok t -> t_type t = T_PAYLOAD) by (intros a u X; apply payload_tlv_ok in X as (_ & ->); reflexivity).
  assert (T5 : forall a t, fcid_tlv a = Ok t -> t_type t = T_FINAL_CHUNK_ID) by (intros a u X; apply fcid_tlv_ok in X; tauto).
  assert (X : forall ty, (if T_NAME =? ty then l1 else []) ++ (if T_EXPIRY =? ty then l2 else []) ++ (if T_PAYLDTYPE =? ty then l3 else []) ++
    (if T_PAYLOAD =? ty then l4 else []) ++ (if T_FINAL_CHUNK_ID =? ty then l5 else []) =
    (if T_NAME =? ty then m1 else []) ++ (if T_EXPIRY =? ty then m2 else []) ++ (if T_PAYLDTYPE =? ty then m3 else []) ++
    (if T_PAYLOAD =? ty then m4 else []) ++ (if T_FINAL_CHUNK_ID =? ty then m5 else [])).
  { intros ty. specialize (T ty). rewrite !of_type_app in T.
    rewrite (of_type_opt _ _ ty _ _ T1 O1), (of_type_opt _ _ ty _ _ T2 O2), (of_type_opt _ _ ty _ _ T3 O3), (of_type_opt _ _ ty _ _ T4 O4), (of_type_opt _ _ ty _ _ T5 O5) in T.
    rewrite (of_type_opt _ _ ty _ _ T1 N1), (of_type_opt _ _ ty _ _ T2 N2), (of_type_opt _ _ ty _ _ T3 N3), (of_type_opt _ _ ty _ _ T4 N4), (of_type_opt _ _ ty _ _ T5 N5) in T.
    exact T. }
  clear T. split; [|split].
  - specialize (X T_NAME). cbn in X. rewrite !app_nil_r in X. subst m1. eapply (opt_tlvs_same name_tlv name_parse name_norm); [|exact O1|exact N1]. intros; now apply name_roundtrip.
  - specialize (X T_PAYLDTYPE). cbn in X. rewrite !app_nil_r in X. subst m3. rewrite <- (option_map_id (co_ptype c)), <- (option_map_id (co_ptype c')).
    eapply (opt_tlvs_same ptype_tlv ptype_parse (fun z => z)); [|exact O3|exact N3]. intros; now apply ptype_roundtrip.
  - specialize (X T_PAYLOAD). cbn in X. rewrite !app_nil_r in X. subst m4. rewrite <- (option_map_id (co_payload c)), <- (option_map_id (co_payload c')).
    eapply (opt_tlvs_same payload_tlv payload_parse (fun z => z)); [|exact O4|exact N4]. intros; now apply payload_roundtrip.
Qed.

Lemma input_same p q w w' : packet_wire p = Ok w -> packet_wire q = Ok w' -> packet_hash_input p = packet_hash_input q ->
  exists c c', p_body p = BCO c /\ p_body q = BCO c' /\ option_map name_norm (co_name c) = option_map name_norm (co_name c') /\
    co_ptype c = co_ptype c' /\ co_payload c = co_payload c'.
Proof.
  intros Hw Hw' Hi. pose proof Hw as X. pose proof Hw' as X'.
  apply packet_wire_ok in X as (h & c & b & l2 & l3 & _ & Hb & Hc & _ & _ & _ & _ & _ & E1).
  apply packet_wire_ok in X' as (h' & c' & b' & m2 & m3 & _ & Hb' & Hc' & _ & _ & _ & _ & _ & E2).
  exists c, c'. split; [exact Hb|]. split; [exact Hb'|].
  assert (C : covered p = covered q) by (eapply input_covered; [exact Hw|exact Hw'|exact E1|rewrite <- Hi; exact E1]).
  assert (b = b') as ->; [|eapply co_tlv_same; eassumption].
  apply tlv_wire_inj; [eapply co_tlv_tlv_ok; eassumption|eapply co_tlv_tlv_ok; eassumption|].
  unfold packet_hash_input in E1, E2. unfold covered, body_wire in *. rewrite Hb, Hb', Hc, Hc' in *. cbn [bind] in *.
  destruct (wire_opt valg_tlv (p_alg p)); [|discriminate]. destruct (wire_opt vpl_tlv (p_vpl p)); [|discriminate].
  destruct (wire_opt valg_tlv (p_alg q)); [|discriminate]. destruct (wire_opt vpl_tlv (p_vpl q)); [|discriminate].
  cbn [bind] in C. apply Ok_inj in C. congruence.
Qed.

Lemma name_norm_snoc n a b ty : name_norm (n ++ [mkComp ty KArray a]) = name_norm (n ++ [mkComp ty KArray b]) -> a = b.
Proof. unfold name_norm. rewrite !map_app. intros H. apply app_inv_head in H. now injection H. Qed.
Lemma impl_name_same i a b n m : impl_name i (Some a) = Ok n -> impl_name i (Some b) = Ok m ->
  option_map name_norm n = option_map name_norm m -> n = m.
Proof.
  unfold impl_name. destruct (im_schema i) as [? ?|? ? ?|[nm|] [ty|] ? ?]; intros H1 H2 E; try discriminate; try congruence.
  inv_bind H1. inv_bind H1. inv_bind H1. inv_bind H2. inv_bind H2. inv_bind H2. apply Ok_inj in H1. apply Ok_inj in H2. subst n m.
  cbn [option_map] in E. assert (name_norm (nm ++ [mkComp ty KArray a0]) = name_norm (nm ++ [mkComp ty KArray a3])) as E' by congruence.
  apply name_norm_snoc in E'. now subst.
Qed.

(* no two packets of the list have the same SHA-256 unless the bytes are the
   same *)
Section Stored.
Context (P : prims) (Ha : aead_correct P) (Ho : oaep_correct P) (Hs : sig_correct P) (clog : Z -> Z -> Z -> Z) (rnd : nat -> bytes) (now : fl)
  (o : opts P) (nc : Z) (data : bytes) (Hmax : op_max o <= 2 ^ 24) (Hnc : nc + 1 < 2 ^ 64).
Context (k k' : nat) (x : nctx) (ps : Z) (l : list bytes) (pkts : list packet) (meta : list cmeta) (num : Z) (r : optres)
  (SU : setup P clog rnd now o nc data k k' x ps l pkts meta num r).
Let v := env_of P o x meta r.
Context (out : list packet) (np : node * packet) (b : bst) (lv : nat) (t : tree)
  (RS : result P rnd now v out k' np b lv t)
  (k1 k2 : nat) (root : packet) (RP : root_packet P rnd now o x (zlen data) (mi_pkt (top t)) k1 = (Ok root, k2)).
Context (ks : option (keystore P)) (Hopen : can_open o ks) (Hkn : forall s, op_signer o = Some s -> knows P ks s).

Lemma data_kind p : In p pkts -> exists j nm bb fc w, impl_name (nx_data x) (Some j) = Ok nm /\
  p_body p = BCO (mkCO nm (Some PT_DATA) (Some bb) (op_dexp o) fc) /\ p_alg p = None /\ packet_wire p = Ok w.
Proof.
  intros Hp. apply In_nth_error in Hp as [j Hj]. assert (L : (j < length pkts)%nat) by (apply nth_error_Some; congruence).
  pose proof (su_emits _ _ _ _ _ _ _ _ _ _ _ _ _ _ _ _ SU) as E. pose proof (emits_nth _ _ _ _ _ _ _ E) as (L1 & L2 & _).
  destruct (emits_at P o _ l pkts meta (Z.of_nat j) E) as (bb & q & _ & Eq & D); [unfold zlen; lia|].
  rewrite Nat2Z.id in Eq. assert (q = p) as -> by congruence. destruct D as (nm & w & h & Hn & Hb & Hal & _ & Hw & _).
  exists (first_num meta + Z.of_nat j), nm, bb. eexists _, w. eauto.
Qed.
Lemma tree_kind p : In p (map mi_pkt (infos t)) -> exists u, In u (subtrees t) /\ p = mi_pkt (top u) /\
  carries P rnd v (mi_node (top u)) (mi_nonce (top u)) (body_name p) p /\ impl_name (nx_man x) (Some (mi_id (top u))) = Ok (body_name p) /\
  node_wf (mi_node (top u)) /\ (forall d, n_data (mi_node (top u)) = Some d -> nd_ncdefs d = []).
Proof.
  intros Hp. apply in_map_iff in Hp as (i & <- & Hi). apply (Permutation_in _ (infos_subtrees t)) in Hi. apply in_map_iff in Hi as (u & <- & Hu).
  exists u. split; [exact Hu|]. split; [reflexivity|].
  destruct (wf_sub P rnd now v t lv (rs_wf _ _ _ _ _ _ _ _ _ _ RS) u Hu) as (l' & _ & W).
  pose proof (nctx_create_wf _ _ _ _ (su_ctx _ _ _ _ _ _ _ _ _ _ _ _ _ _ _ _ SU)) as Hx.
  pose proof (wf_faithful P rnd now v l' u Hx W) as (Hc & Hn & _).
  assert (mi_name (top u) = body_name (mi_pkt (top u))) as En by (destruct Hc as (m & w & _ & _ & _ & Hb & _); unfold body_name; rewrite Hb; reflexivity).
  rewrite <- En. split; [exact Hc|]. split; [exact Hn|]. split.
  - pose proof (all_nodes_wf P clog rnd now o nc data Hmax Hnc k k' x ps l pkts meta num r SU out np b lv t RS) as Nw.
    rewrite Forall_forall in Nw. apply Nw. exact Hu.
  - assert (forall z d, size_data P v z = Some d -> nd_ncdefs d = []) as S.
    { unfold size_data, opt_if. intros z d. destruct (op_nsize _); [|discriminate]. now intros [= <-]. }
    destruct u as [i lo hi|i lo hi kids]; cbn [top].
    + apply wf_leaf in W as (_ & _ & _ & _ & _ & ->). apply S.
    + apply wf_inner in W as (l2 & -> & _ & _ & _ & _ & _ & _ & _ & -> & _). apply S.
Qed.
Lemma root_kind : exists h m w wr, packet_hash (pr_sha P) (mi_pkt (top t)) = Ok h /\ root_manifest P rnd o (root_node o x (zlen data) h) k1 m /\
  man_wire m = Ok w /\ p_body root = BCO (mkCO (op_name o) (Some PT_MANIFEST) (Some w) (op_rexp o) None) /\
  packet_wire root = Ok wr /\ validate_packet P ks root = Ok tt.
Proof.
  apply root_inv in RP as (h & m & w & Hh & Hm & Hw & _ & Hcr & Hb & _). exists h, m, w.
  destruct (op_signer o) as [sg|].
  - assert (exists wr, packet_wire root = Ok wr) as (wr & Hwr).
    { pose proof Hcr as H. apply sign_content_ok in H as (a & tc & ta & vv & _ & _ & _ & _ & _ & _ & _ & H).
      unfold create_signed_content_object in H. inv_bind H. inv_bind H. inv_bind H. inv_bind H. apply Ok_inj in H. subst root. eauto. }
    exists wr. repeat (split; [assumption|]). eapply C21_signed_packet_validates; eauto.
  - unfold create_content_object in Hcr. inv_bind Hcr. inv_bind Hcr. apply Ok_inj in Hcr. subst root. eexists.
    repeat (split; [eassumption|]). reflexivity.
Qed.

(* the root manifest is never the same as another manifest: it defines name
   constructors *)
Lemma root_differs p c c' : In p (map mi_pkt (infos t)) -> p_body p = BCO c -> p_body root = BCO c' -> co_payload c = co_payload c' -> False.
Proof.
  intros Hp Hc Hc' E. apply tree_kind in Hp as (u & Hu & -> & (m & w & Hm & Hw & _ & Hb & _) & _ & Hn & Hd).
  destruct root_kind as (h & mr & wr & _ & Hh & Hmr & Hwr & Hbr & _).
  rewrite Hb in Hc. injection Hc as <-. rewrite Hbr in Hc'. injection Hc' as <-. cbn [co_payload] in E. injection E as ->.
  pose proof (root_node_wf P clog rnd now o nc data Hmax Hnc k k' x ps l pkts meta num r SU h) as Hnr.
  destruct (enc_ok P o ks Hopen) as (E1 & E2).
  assert (manifest_of_node o (mi_node (top u)) m) as M1.
  { unfold manifest_for in Hm. unfold manifest_of_node. change (te_opt v) with o in Hm. destruct (op_enc o); eauto. }
  assert (manifest_of_node o (root_node o x (zlen data) h) mr) as M2.
  { unfold root_manifest in Hmr. unfold manifest_of_node. destruct (op_enc o); eauto. }
  destruct (received P o _ m wr E1 E2 M1 Hn Hw) as (m' & D & Em).
  destruct (received P o _ mr wr E1 E2 M2 Hnr Hwr) as (m'' & D' & Em'). rewrite D in D'. apply Ok_inj in D'. subst m''.
  destruct (open_cold P o Ha Ho rnd ks _ _ mr m' Hopen Hmr Hnr Em' (tst_new P ks) eq_refl) as (_ & s1 & _ & _ & Hw1).
  destruct (open_warm P o Ha _ m m' M1 Hn Em s1 Hw1) as (a1 & s2 & D1 & N1 & _).
  destruct (open_warm P o Ha _ mr m' M2 Hnr Em' s1 Hw1) as (a2 & s3 & D2 & N2 & _).
  rewrite D1 in D2. injection D2 as <- _. rewrite N1 in N2. injection N2 as N2 _.
  destruct (n_data (mi_node (top u))) as [d|] eqn:Ed; [|discriminate]. cbn [option_map] in N2.
  apply (f_equal (option_map nd_ncdefs)) in N2. cbn [option_map nd_norm nd_ncdefs] in N2. rewrite (Hd d eq_refl) in N2.
  unfold nctx_defs in N2. destruct (nx_two x); discriminate.
Qed.

Let new := pkts ++ map mi_pkt (infos t) ++ [root].
Lemma new_ok p : In p new -> (exists w, packet_wire p = Ok w) /\ validate_packet P ks p = Ok tt.
Proof.
  intros Hp. apply in_app_iff in Hp as [Hp|Hp]; [|apply in_app_iff in Hp as [Hp|[<-|[]]]].
  - apply data_kind in Hp as (j & nm & bb & fc & w & _ & _ & Hal & Hw). split; [eauto|]. unfold validate_packet. rewrite Hal. reflexivity.
  - apply tree_kind in Hp as (u & _ & _ & (m & w & _ & _ & _ & _ & Hal & _ & Hw) & _). split; [exact Hw|]. unfold validate_packet. rewrite Hal. reflexivity.
  - destruct root_kind as (h & m & w & wr & _ & _ & _ & _ & Hwr & Hv). eauto.
Qed.
Lemma same_bytes p q : In p new -> In q new -> packet_hash_input p = packet_hash_input q -> body_name p = body_name q /\ copy ks q p.
Proof.
  intros Hp Hq Hi. pose proof (new_ok p Hp) as ((w & Hw) & _). pose proof (new_ok q Hq) as ((w' & Hw') & Hv).
  destruct (input_same p q w w' Hw Hw' Hi) as (c & c' & Hc & Hc' & En & Et & Ep). split; [|exists c, c'; auto].
  unfold new in *. rewrite in_app_iff in Hp, Hq. rewrite in_app_iff in Hp, Hq.
  assert (PD : forall z cz, In z pkts -> p_body z = BCO cz -> co_ptype cz = Some PT_DATA).
  { intros z cz Hz Hcz. apply data_kind in Hz as (j & nm & bb & fc & ww & _ & Hb & _). rewrite Hb in Hcz. now injection Hcz as <-. }
  assert (PM : forall z cz, In z (map mi_pkt (infos t)) \/ In z [root] -> p_body z = BCO cz -> co_ptype cz = Some PT_MANIFEST).
  { intros z cz [Hz|[<-|[]]] Hcz.
    - apply tree_kind in Hz as (u & _ & _ & (m & ww & _ & _ & _ & Hb & _) & _). rewrite Hb in Hcz. now injection Hcz as <-.
    - destruct root_kind as (h & m & ww & wr & _ & _ & _ & Hb & _). rewrite Hb in Hcz. now injection Hcz as <-. }
  assert (NE : forall A : Prop, Some PT_DATA = Some PT_MANIFEST -> A) by discriminate.
  destruct Hp as [Hp|Hp], Hq as [Hq|Hq].
  - apply data_kind in Hp as (j & nm & bb & fc & ww & Hn & Hb & _). apply data_kind in Hq as (j' & nm' & bb' & fc' & ww' & Hn' & Hb' & _).
    unfold body_name. rewrite Hb, Hb'. rewrite Hb in Hc. rewrite Hb' in Hc'. injection Hc as <-. injection Hc' as <-.
    eapply impl_name_same; [exact Hn|exact Hn'|exact En].
  - apply NE. rewrite <- (PD p c Hp Hc), <- (PM q c' Hq Hc'). exact Et.
  - apply NE. rewrite <- (PD q c' Hq Hc'), <- (PM p c Hp Hc). now symmetry.
  - destruct Hp as [Hp|[<-|[]]], Hq as [Hq|[<-|[]]].
    + apply tree_kind in Hp as (u & _ & _ & _ & Hn & _). apply tree_kind in Hq as (u' & _ & _ & _ & Hn' & _).
      eapply impl_name_same; [exact Hn|exact Hn'|]. unfold body_name. rewrite Hc, Hc'. exact En.
    + exfalso. exact (root_differs p c c' Hp Hc Hc' Ep).
    + exfalso. exact (root_differs q c' c Hq Hc' Hc (eq_sym Ep)).
    + reflexivity.
Qed.

(* a reader that looks packets up by hash and checks names *)
Lemma answered get p : no_collisions P new -> keeps P new get -> In p new -> available get ks p.
Proof.
  intros NC K Hp h Hh. destruct (K (body_name p) h) as (q & Hq & Hhq & E); [eauto|].
  destruct (same_bytes p q Hp Hq (NC p q h Hp Hq Hh Hhq)) as (En & Cp). exists q. split; [|exact Cp]. rewrite E.
  pose proof (new_ok q Hq) as ((w & Hw) & _). destruct (body_name q) as [n|] eqn:Eq.
  - rewrite En, (check_name_named _ n) by exact Eq. destruct (packet_name_ok _ _ _ Hw Eq) as (tn & Hn). now rewrite (name_eq_refl _ _ Hn).
  - now apply check_name_unnamed.
Qed.
(* asked for the top manifest by another name *)
Lemma refused_name get h n : no_collisions P new -> keeps P new get -> packet_hash (pr_sha P) (mi_pkt (top t)) = Ok h ->
  Some n <> body_name (mi_pkt (top t)) -> body_name (mi_pkt (top t)) <> None -> get (Some n) (Some h) = Err ValueError.
Proof.
  intros NC K Hh Hn Hn'. assert (In (mi_pkt (top t)) new) as Hp.
  { unfold new. rewrite in_app_iff. right. rewrite in_app_iff. left. apply in_map. rewrite <- order_infos. apply in_map. apply order_self. }
  destruct (K (Some n) h) as (q & Hq & Hhq & E); [eauto|]. rewrite E.
  destruct (same_bytes _ q Hp Hq (NC _ q h Hp Hq Hh Hhq)) as (En & _). rewrite En in Hn, Hn'.
  destruct (body_name q) as [m|] eqn:Eq; [|congruence]. rewrite (check_name_named n m q Eq).
  destruct (name_eq n m) eqn:Ee; [|reflexivity]. apply name_eq_true in Ee. congruence.
Qed.
End Stored.
