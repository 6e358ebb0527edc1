(* C30 and C72: what the options of a build do to its packets. *)
From Coq Require Import ZArith List Bool Lia ZifyBool Permutation.
From Verif Require Import Py Tlv Float Core TlvProofs CoreProofs Flic FlicProofs Spec WireSpec PropsTlv PropsFlic Crypto
  CryptoProofs PropsCrypto Optimizer OptimizerProofs PropsOptimizer Tree TreeSpec TreeProofs PropsTree ChunkProofs PropsChunk TreeFacts
  BuildProofs Store StoreProofs Traversal TraversalSpec TraversalProofs EndSpec EndProofs ReadProofs PropsEnd PropsNames.
Import ListNotations.
Open Scope Z_scope.
Opaque tlv_make tlv_wire tlv_deserialize.

(* ---------------- specification ---------------- *)

(* a manifest or a data object *)
Definition of_kind {P} (o : opts P) (man : bool) (p : packet) : Prop :=
  if man then exists nd, holds_node o p nd else is_data_object p.
Definition expires (p : packet) (e : option fl) : Prop :=
  exists c, p_body p = BCO c /\ co_expiry c = e.
Definition final_chunk (p : packet) : option Z :=
  match p_body p with BCO c => co_fcid c | _ => None end.

(* where to look for manifests or for data of a hashed tree *)
Definition locators_of {P} (o : opts P) (man : bool) : list link :=
  match (if man then op_mlocs o else op_dlocs o) with
  | Some l => l
  | None => [mkLink (op_name o) None None]
  end.
(* the schema the options select for manifests or for data *)
Definition schema_of {P} (o : opts P) (man : bool) : schema :=
  match op_type o with
  | Hashed => SHash (Some (locators_of o man)) None
  | Prefixed => SPrefix (prefix_of o man) None None
  | Segmented => SSeg (prefix_of o man) (Some (if man then 16 else 5)) None None
  end.
Definition schema_locators (s : schema) : option (list link) :=
  match s with SHash l _ | SPrefix _ l _ | SSeg _ _ l _ => l end.

(* ---------------- C30: the degree option ---------------- *)

Lemma opt_sum clog n p r : 0 <= n <= 2 ^ 32 -> p <= 2 ^ 20 -> log_ok clog ->
  minimize_k_min_waste clog n p = Ok r -> or_d r + or_m r = p.
Proof.
  intros Hn0 Hp HL E. assert (1 <= n <= 2 ^ 32) as Hn.
  { destruct (Z.eq_dec n 0) as [->|]; [|lia]. destruct (Z.le_gt_cases 1 p).
    - rewrite optimizer_empty in E by assumption. discriminate.
    - exfalso. unfold minimize_k_min_waste, minimize_k in E. rewrite zrange_nil in E by lia. discriminate. }
  pose proof (optimizer_degree _ _ _ _ (proj1 Hn) E) as H2.
  destruct (C28_optimizer_height clog n p HL Hn ltac:(lia)) as (r' & L & E' & Hd & Hm & S & _).
  rewrite E in E'. apply Ok_inj in E'. subst r'. exact S.
Qed.

(* Every manifest of a build holds at least one pointer, at most as many as the
   degree, and the root manifest exactly one. *)
Theorem C30_degree : forall P clog rnd now (o : opts P) nc data s root s',
  log_ok clog -> op_max o <= 2 ^ 24 ->
  manifest_tree P clog rnd now o nc data s = (Ok root, s') ->
  exists datas mans,
    ms_out s' = ms_out s ++ datas ++ mans ++ [root] /\ Forall (of_kind o false) datas /\
    Forall (fun p => exists nd, holds_node o p nd /\ 1 <= zlen (node_ptrs nd) /\
      forall d, op_degree o = Some d -> zlen (node_ptrs nd) <= d) mans /\
    exists nd, holds_node o root nd /\ zlen (node_ptrs nd) = 1.
Proof.
  intros P clog rnd now o nc data s root s' Hl HM H.
  destruct (manifest_tree_at P clog rnd now o nc data Hl HM _ _ _ H) as (k' & x & ps & l & pkts & meta & num & r & lv & t & np & b & k2 & (SU & Hem) & RS & RP & ->).
  exists pkts, (map mi_pkt (infos t)). cbn [ms_out]. split; [reflexivity|].
  pose proof (su_ctx _ _ _ _ _ _ _ _ _ _ _ _ _ _ _ _ SU) as Hctx. pose proof (nctx_create_wf _ _ _ _ Hctx) as Hx.
  pose proof (emits_nth _ _ _ _ _ _ _ Hem) as (L1 & L2 & _).
  split.
  { apply Forall_forall. intros p Hp. apply In_nth_error in Hp as [j Hj].
    assert (j < length pkts)%nat by (apply nth_error_Some; congruence).
    destruct (emits_at P o _ l pkts meta (Z.of_nat j) Hem) as (bb & q & _ & Ep & D); [unfold zlen; lia|].
    rewrite Nat2Z.id in Ep. assert (q = p) as -> by congruence. destruct D as (nm & w & h & _ & Hb & _). eexists. split; [exact Hb|reflexivity]. }
  set (v := env_of P o x meta r) in *.
  split.
  - apply Forall_forall. intros p Hp. apply in_map_iff in Hp as (i & <- & Hi). apply (Permutation_in _ (infos_subtrees t)) in Hi.
    apply in_map_iff in Hi as (u & <- & Hu). destruct (wf_sub P rnd now v t lv (rs_wf _ _ _ _ _ _ _ _ _ _ RS) u Hu) as (l' & _ & W).
    destruct (wf_faithful P rnd now v l' u Hx W) as (Hc & _).
    exists (mi_node (top u)). split; [eapply carries_holds; [|exact Hc]; reflexivity|].
    rewrite (node_ptrs_targets P rnd now v l' u Hx W), zlen_map.
    assert (1 <= zlen (targets u) <= te_d v + te_m v) as (A & B).
    { destruct u as [i lo hi|i lo hi kids]; cbn [targets].
      - apply wf_leaf in W as (_ & _ & L & _ & Lp & _). unfold te_p in Lp. rewrite zlen_map, zrange_len. lia.
      - apply wf_inner in W as (l3 & _ & _ & _ & L & _ & Ld & K0 & Km & _).
        rewrite zlen_app, !zlen_map, zrange_len. destruct kids as [|kd ks]; [congruence|].
        rewrite zlen_cons in *. pose proof (zlen_nonneg ks). lia. }
    split; [exact A|]. intros d Ed. change (te_d v) with (or_d r) in B. change (te_m v) with (or_m r) in B.
    pose proof (su_opt _ _ _ _ _ _ _ _ _ _ _ _ _ _ _ _ SU) as E. rewrite Ed in E.
    pose proof (max_pointers_bound _ _ _ _ _ _ _ _ _ HM (su_num _ _ _ _ _ _ _ _ _ _ _ _ _ _ _ _ SU)) as Hb.
    pose proof (su_usable _ _ _ _ _ _ _ _ _ _ _ _ _ _ _ _ SU) as U.
    pose proof (emits_count P o _ 0 l pkts meta Hem ltac:(unfold MAX_CHUNK_ID; lia)) as (C & _). unfold MAX_CHUNK_ID in C.
    pose proof (opt_sum clog (zlen meta) (Z.min num d) r ltac:(pose proof (zlen_nonneg meta); change (2 ^ 32) with 4294967296; lia) ltac:(lia) Hl E). lia.
  - apply root_inv in RP as (h & m & w & Hh & Hm & Hw & _ & _ & Hb & _). exists (root_node o x (zlen data) h). split; [|reflexivity].
    eexists _, m, w. split; [exact Hb|]. do 2 (split; [reflexivity|]). split; [exact Hw|].
    unfold root_manifest in Hm. unfold manifest_of_node. destruct (op_enc o); eauto.
Qed.
Print Assumptions C30_degree.

(* ---------------- C72: expiry times ---------------- *)

(* Every packet of a build has the expiry time of the options for its kind, and
   only data objects have a final chunk id. *)
Theorem C72_expiry : forall P clog rnd now (o : opts P) nc data s root s',
  log_ok clog -> op_max o <= 2 ^ 24 ->
  manifest_tree P clog rnd now o nc data s = (Ok root, s') ->
  exists datas mans,
    ms_out s' = ms_out s ++ datas ++ mans ++ [root] /\
    Forall (fun p => of_kind o false p /\ expires p (op_dexp o)) datas /\
    Forall (fun p => of_kind o true p /\ expires p (op_mexp o) /\ final_chunk p = None) mans /\
    of_kind o true root /\ expires root (op_rexp o) /\ final_chunk root = None.
Proof.
  intros P clog rnd now o nc data s root s' Hl HM H.
  destruct (manifest_tree_at P clog rnd now o nc data Hl HM _ _ _ H) as (k' & x & ps & l & pkts & meta & num & r & lv & t & np & b & k2 & (SU & Hem) & RS & RP & ->).
  exists pkts, (map mi_pkt (infos t)). cbn [ms_out]. split; [reflexivity|].
  pose proof (nctx_create_wf _ _ _ _ (su_ctx _ _ _ _ _ _ _ _ _ _ _ _ _ _ _ _ SU)) as Hx.
  pose proof (emits_nth _ _ _ _ _ _ _ Hem) as (L1 & L2 & _).
  set (v := env_of P o x meta r) in *.
  split; [|split].
  - apply Forall_forall. intros p Hp. apply In_nth_error in Hp as [j Hj].
    assert (j < length pkts)%nat by (apply nth_error_Some; congruence).
    destruct (emits_at P o _ l pkts meta (Z.of_nat j) Hem) as (bb & q & _ & Ep & D); [unfold zlen; lia|].
    rewrite Nat2Z.id in Ep. assert (q = p) as -> by congruence. destruct D as (nm & w & h & _ & Hb & _).
    split; eexists; (split; [exact Hb|reflexivity]).
  - apply Forall_forall. intros p Hp. apply in_map_iff in Hp as (i & <- & Hi). apply (Permutation_in _ (infos_subtrees t)) in Hi.
    apply in_map_iff in Hi as (u & <- & Hu). destruct (wf_sub P rnd now v t lv (rs_wf _ _ _ _ _ _ _ _ _ _ RS) u Hu) as (l' & _ & W).
    destruct (wf_faithful P rnd now v l' u Hx W) as (Hc & _).
    split; [exists (mi_node (top u)); eapply carries_holds; [|exact Hc]; reflexivity|].
    destruct Hc as (m & w & _ & _ & _ & Hb & _). split; [eexists; split; [exact Hb|reflexivity]|]. unfold final_chunk. now rewrite Hb.
  - apply root_inv in RP as (h & m & w & Hh & Hm & Hw & _ & _ & Hb & _). split; [exists (root_node o x (zlen data) h)|].
    + eexists _, m, w. split; [exact Hb|]. do 2 (split; [reflexivity|]). split; [exact Hw|].
      unfold root_manifest in Hm. unfold manifest_of_node. destruct (op_enc o); eauto.
    + split; [eexists; split; [exact Hb|reflexivity]|]. unfold final_chunk. now rewrite Hb.
Qed.
Print Assumptions C72_expiry.

(* ---------------- C72: name constructors ---------------- *)

Lemma links_same a : forall b, links_eq a b = true -> locs_tlv a = locs_tlv b.
Proof.
  assert (forall b, links_eq a b = true -> zlen a = zlen b /\ mapM loc_tlv a = mapM loc_tlv b) as X.
  { induction a as [|u a IH]; intros [|w b] H; try discriminate; [split; reflexivity|]. cbn [links_eq] in H.
    apply andb_true_iff in H as (E & H). apply IH in H as (L & M). rewrite !zlen_cons, L. split; [reflexivity|]. cbn [mapM].
    assert (loc_tlv u = loc_tlv w) as ->; [|now rewrite M]. unfold link_eq in E. apply andb_true_iff in E as (E & W).
    apply andb_true_iff in E as (E & _). apply andb_true_iff in E as (E & _). unfold loc_tlv.
    destruct (l_name u), (l_name w); try discriminate; cbn [is_none negb guard bind].
    - destruct (link_wire u), (link_wire w); try discriminate. apply beqb_spec in W. subst. reflexivity.
    - reflexivity. }
  intros b H. unfold locs_tlv. destruct (X b H) as (-> & ->). reflexivity.
Qed.

Definition impl_for (x : nctx) (man : bool) : impl := if man then nx_man x else nx_data x.

Lemma ctx_schemas P (o : opts P) nc x : nctx_create P o nc = Ok x -> forall man,
  schema_tlv (im_schema (impl_for x man)) = schema_tlv (schema_of o man) /\
  (op_type o <> Hashed -> im_schema (impl_for x man) = schema_of o man).
Proof.
  intros H. assert (Pf : prefixes P o = (prefix_of o true, prefix_of o false)).
  { unfold prefixes, prefix_of. destruct (op_mprefix o), (op_dprefix o); reflexivity. }
  unfold nctx_create in H. unfold schema_of. destruct (op_type o) eqn:T.
  - unfold create_hashed in H. apply bind_ok in H as (? & _ & H).
    change (match op_mlocs o with None => [mkLink (op_name o) None None] | Some l => l end) with (locators_of o true) in H.
    change (match op_dlocs o with None => [mkLink (op_name o) None None] | Some l => l end) with (locators_of o false) in H.
    destruct (links_eq (locators_of o true) (locators_of o false)) eqn:E.
    + unfold nctx_one, schema_create in H. rewrite T in H. apply bind_ok in H as (i & Ei & H). apply impl_make_eq in Ei. apply Ok_inj in H. subst x i.
      intros man. split; [|congruence]. apply links_same in E. destruct man; cbn; [reflexivity|]. now rewrite E.
    + unfold nctx_two, schema_create in H. rewrite T in H. apply bind_ok in H as (i & Ei & H). apply bind_ok in H as (j & Ej & H).
      apply impl_make_eq in Ei, Ej. apply Ok_inj in H. subst x i j. intros man. split; [|congruence]. destruct man; reflexivity.
  - rewrite Pf in H. unfold create_named in H. apply bind_ok in H as (e & Ee & H). destruct e.
    + unfold nctx_one, schema_create in H. rewrite T in H. apply bind_ok in H as (i & Ei & H). apply impl_make_eq in Ei. apply Ok_inj in H. subst x i.
      assert (prefix_of o true = prefix_of o false) as E.
      { unfold opt_name_eq in Ee. destruct (prefix_of o true), (prefix_of o false); try discriminate; [|reflexivity]. apply Ok_inj in Ee. f_equal. now apply name_eq_true. }
      intros man. assert (im_schema (impl_for (mkNctx (mkImpl nc (SPrefix (prefix_of o true) None None)) (mkImpl nc (SPrefix (prefix_of o true) None None)) false) man) =
        SPrefix (prefix_of o man) None None) as -> by (destruct man; cbn; congruence). auto.
    + unfold nctx_two, schema_create in H. rewrite T in H. apply bind_ok in H as (i & Ei & H). apply bind_ok in H as (j & Ej & H).
      apply impl_make_eq in Ei, Ej. apply Ok_inj in H. subst x i j. intros man. destruct man; cbn; auto.
  - unfold create_segmented in H. apply bind_ok in H as (? & _ & H). rewrite Pf in H. apply bind_ok in H as (e & Ee & H).
    apply bind_ok in H as (? & G & H). apply guard_ok in G. destruct e; [discriminate|].
    unfold create_named in H. rewrite Ee in H. cbn [bind] in H.
    unfold nctx_two, schema_create in H. rewrite T in H. apply bind_ok in H as (i & Ei & H). apply bind_ok in H as (j & Ej & H).
    apply impl_make_eq in Ei, Ej. apply Ok_inj in H. subst x i j. intros man. destruct man; cbn; auto.
Qed.
Lemma ctx_ids x : ctx_wf x -> NoDup (map nd_id (nctx_defs x)) /\
  forall man, In (impl_ncdef (impl_for x man)) (nctx_defs x).
Proof.
  unfold ctx_wf, nctx_defs. destruct (nx_two x); intros (H & H').
  - cbn. split; [|intros []; cbn; auto]. constructor; [|constructor; [cbn; tauto|constructor]]. intros [E|[]]. injection E. congruence.
  - cbn. split; [|intros []; cbn; [auto|left; congruence]]. constructor; [cbn; tauto|constructor].
Qed.

(* The root manifest defines a name constructor for manifests and one for data,
   perhaps the same, with the schema of the options; every pointer below it is
   found with the one for its kind, and no other manifest defines any. *)
Theorem C72_definitions : forall P clog rnd now (o : opts P) nc data s root s',
  log_ok clog -> op_max o <= 2 ^ 24 ->
  manifest_tree P clog rnd now o nc data s = (Ok root, s') ->
  exists datas mans nd d (nc_of : bool -> Z) top,
    ms_out s' = ms_out s ++ datas ++ mans ++ [root] /\ holds_node o root nd /\ n_data nd = Some d /\
    NoDup (map nd_id (nd_ncdefs d)) /\ (forall x, In x (nd_ncdefs d) -> exists man, nd_id x = Some (nc_of man)) /\
    (forall man, exists sch, In (mkNcDef (Some (nc_of man)) (Some sch)) (nd_ncdefs d) /\
       schema_tlv sch = schema_tlv (schema_of o man)) /\
    node_iter (n_groups nd) = ([top], None) /\ hi_nc top = nc_of true /\
    (exists q, In q mans /\ packet_hash (pr_sha P) q = Ok (hi_hash top)) /\
    Forall (fun p => exists nd' items, holds_node o p nd' /\ node_defs nd' = [] /\ node_iter (n_groups nd') = (items, None) /\
      Forall (fun it => exists (man : bool) q, In q (if man then mans else datas) /\ of_kind o man q /\
        packet_hash (pr_sha P) q = Ok (hi_hash it) /\ hi_nc it = nc_of man) items) mans.
Proof.
  intros P clog rnd now o nc data s root s' Hl HM H.
  destruct (manifest_tree_at P clog rnd now o nc data Hl HM _ _ _ H) as (k' & x & ps & l & pkts & meta & num & r & lv & t & np & b & k2 & (SU & Hem) & RS & RP & ->).
  pose proof (su_ctx _ _ _ _ _ _ _ _ _ _ _ _ _ _ _ _ SU) as Hctx. pose proof (nctx_create_wf _ _ _ _ Hctx) as Hx.
  pose proof (emits_nth _ _ _ _ _ _ _ Hem) as (L1 & L2 & _).
  pose proof (emits_numbered P o x meta r l pkts Hem) as Hnum.
  apply root_inv in RP as (h & m & w & Hh & Hm & Hw & _ & _ & Hb & _).
  exists pkts, (map mi_pkt (infos t)), (root_node o x (zlen data) h). eexists. exists (fun man : bool => im_nc (impl_for x man)). eexists.
  cbn [ms_out]. split; [reflexivity|].
  split. { eexists _, m, w. split; [exact Hb|]. do 2 (split; [reflexivity|]). split; [exact Hw|].
    unfold root_manifest in Hm. unfold manifest_of_node. destruct (op_enc o); eauto. }
  split; [reflexivity|]. cbn [nd_ncdefs]. pose proof (ctx_ids x Hx) as (ND & IN). split; [exact ND|].
  split. { unfold nctx_defs. intros y Hy. destruct (nx_two x); [destruct Hy as [<-|[<-|[]]]; [exists true|exists false]|destruct Hy as [<-|[]]; exists true]; reflexivity. }
  split. { intros man. exists (im_schema (impl_for x man)). split; [apply (IN man)|]. apply (ctx_schemas P o nc x Hctx man). }
  split; [reflexivity|]. cbn [hi_nc hi_hash]. split; [reflexivity|].
  split. { exists (mi_pkt (top t)). split; [|exact Hh]. apply in_map. apply (Permutation_in _ (Permutation_sym (infos_subtrees t))). apply in_map. destruct t; now left. }
  set (v := env_of P o x meta r) in *.
  assert (MAN : forall u, In u (subtrees t) -> exists l', wf P rnd now v l' u /\ holds_node o (mi_pkt (top u)) (mi_node (top u)) /\
    packet_hash (pr_sha P) (mi_pkt (top u)) = Ok (pkt_hash P (mi_pkt (top u)))).
  { intros u Hu. destruct (wf_sub P rnd now v t lv (rs_wf _ _ _ _ _ _ _ _ _ _ RS) u Hu) as (l' & _ & W). exists l'.
    destruct (wf_faithful P rnd now v l' u Hx W) as (Hc & Hn & Hh' & _). split; [exact W|]. split; [|exact Hh'].
    eapply carries_holds; [|exact Hc]; reflexivity. }
  apply Forall_forall. intros p Hp. apply in_map_iff in Hp as (i & <- & Hi). apply (Permutation_in _ (infos_subtrees t)) in Hi.
  apply in_map_iff in Hi as (u & <- & Hu). destruct (MAN u Hu) as (l' & W & HN & _).
  exists (mi_node (top u)), (map (tg_hiv P v) (targets u)).
  split; [exact HN|]. split.
  { clear -W. destruct u as [i lo hi|i lo hi kids]; cbn [top].
    - apply wf_leaf in W as (_ & _ & _ & _ & _ & ->). unfold node_defs. cbn [leaf_node n_data]. unfold size_data, opt_if. destruct (op_nsize _); reflexivity.
    - apply wf_inner in W as (l3 & _ & _ & _ & _ & _ & _ & _ & _ & -> & _). unfold node_defs. unfold inner_node. cbn [n_data]. unfold size_data, opt_if. destruct (op_nsize _); reflexivity. }
  split; [eapply node_items; eassumption|].
  apply Forall_forall. intros it Hit. apply in_map_iff in Hit as (g & <- & Hg). unfold tg_hiv. cbn [hi_hash hi_nc].
  destruct g as [j|kd].
  - pose proof (wf_chunk_targets P rnd now v l' u j W Hg) as Hj. change (zlen (te_meta v)) with (zlen meta) in Hj.
    destruct (emits_at P o _ l pkts meta j Hem Hj) as (bb & q & _ & Ep & D). exists false, q. split; [eapply nth_error_In; exact Ep|].
    destruct D as (nm & w' & h' & _ & Hb' & _ & _ & _ & _ & _ & _ & _ & Hh' & Hm'). split; [eexists; split; [exact Hb'|reflexivity]|].
    split; [|reflexivity]. rewrite Hh'. cbn [tg_hash]. unfold chunk_meta. cbn [v env_of te_meta]. rewrite Hm'. reflexivity.
  - assert (In kd (subtrees t)) as Hk.
    { apply (subtrees_trans t u); [exact Hu|]. destruct u as [i0 lo hi|i0 lo hi kids]; cbn [targets] in Hg.
      - apply in_map_iff in Hg as (? & E & _). discriminate.
      - apply in_app_iff in Hg as [Hg|Hg]; apply in_map_iff in Hg as (k0 & E & Hg); [discriminate|]. injection E as ->.
        cbn [subtrees]. right. apply in_flat_map. exists kd. split; [exact Hg|]. destruct kd; now left. }
    destruct (MAN kd Hk) as (l2 & _ & Nk & Ek). exists true, (mi_pkt (top kd)).
    split; [apply in_map; apply (Permutation_in _ (Permutation_sym (infos_subtrees t))); apply in_map; exact Hk|].
    split; [eexists; exact Nk|]. split; [exact Ek|reflexivity].
Qed.
Print Assumptions C72_definitions.

(* Locators given for a prefixed or segmented tree are told to nobody. *)
Theorem C72_locators_refuted : forall P clog rnd now (o : opts P) nc data s root s',
  log_ok clog -> op_max o <= 2 ^ 24 -> op_type o <> Hashed ->
  manifest_tree P clog rnd now o nc data s = (Ok root, s') ->
  exists nd, holds_node o root nd /\
    Forall (fun d => exists sch, nd_schema d = Some sch /\ schema_locators sch = None) (node_defs nd).
Proof.
  intros P clog rnd now o nc data s root s' Hl HM T H.
  destruct (manifest_tree_at P clog rnd now o nc data Hl HM _ _ _ H) as (k' & x & ps & l & pkts & meta & num & r & lv & t & np & b & k2 & (SU & Hem) & RS & RP & ->).
  pose proof (su_ctx _ _ _ _ _ _ _ _ _ _ _ _ _ _ _ _ SU) as Hctx.
  apply root_inv in RP as (h & m & w & Hh & Hm & Hw & _ & _ & Hb & _).
  exists (root_node o x (zlen data) h).
  split. { eexists _, m, w. split; [exact Hb|]. do 2 (split; [reflexivity|]). split; [exact Hw|].
    unfold root_manifest in Hm. unfold manifest_of_node. destruct (op_enc o); eauto. }
  assert (X : forall man, schema_locators (im_schema (impl_for x man)) = None).
  { intros man. destruct (ctx_schemas P o nc x Hctx man) as (_ & E). rewrite (E T). unfold schema_of. destruct (op_type o); [congruence|reflexivity|reflexivity]. }
  change (node_defs (root_node o x (zlen data) h)) with (nctx_defs x). unfold nctx_defs.
  assert (Forall (fun d => exists sch, nd_schema d = Some sch /\ schema_locators sch = None) [impl_ncdef (nx_man x)]) as F1
    by (constructor; [exists (im_schema (nx_man x)); split; [reflexivity|exact (X true)]|constructor]).
  destruct (nx_two x); [|exact F1]. constructor; [now inversion F1|]. constructor; [|constructor].
  exists (im_schema (nx_data x)). split; [reflexivity|exact (X false)].
Qed.
Print Assumptions C72_locators_refuted.

(* A build with locators, a degree and expiry times. *)
Definition ex_loc (b : Z) : list link := [mkLink (Some (ex_name [b])) None None].
Definition ex_told (ty : stype) (dg : option Z) : opts toy :=
  mkOpts toy (Some (ex_name [97])) ty None None (Some (ex_name [97; 100])) (Some (ex_loc 109)) (Some (ex_loc 100))
    (Some (mkFl 1 0)) (Some (mkFl 1 1)) (Some (mkFl 1 2)) ENone true false false dg 400.
(* expiry time, number of pointers (0 for a data object), definitions *)
Definition ex_packet_look (p : packet) : option fl * Z * list ncdef :=
  match p_body p with
  | BCO c =>
    match co_ptype c, co_payload c with
    | Some 3, Some w =>
      match man_deserialize w with
      | Ok (mkMan _ (MNode nd) _) => (co_expiry c, zlen (node_ptrs nd), node_defs nd)
      | _ => (None, -1, [])
      end
    | _, _ => (co_expiry c, 0, [])
    end
  | _ => (None, -2, [])
  end.
Definition ex_packets (o : opts toy) (data : bytes) : list (option fl * Z * list ncdef) :=
  map ex_packet_look (ms_out (snd (manifest_tree toy exact_log (ex_nonce o) (mkFl 0 0) o 1 data (mkMst [] 0)))).
Example C72_ex :
  (log_ok exact_log /\ op_max (ex_told Hashed None) <= 2 ^ 24) /\
  ex_packets (ex_told Hashed (Some 3)) (ex_bytes 1500) =
    repeat (Some (mkFl 1 2), 0, []) 5 ++ [(Some (mkFl 1 1), 3, []); (Some (mkFl 1 1), 3, []);
      (Some (mkFl 1 0), 1, [mkNcDef (Some 1) (Some (SHash (Some (ex_loc 109)) None)); mkNcDef (Some 2) (Some (SHash (Some (ex_loc 100)) None))])] /\
  ex_packets (ex_told Prefixed (Some 3)) (ex_bytes 1500) =
    repeat (Some (mkFl 1 2), 0, []) 5 ++ [(Some (mkFl 1 1), 3, []); (Some (mkFl 1 1), 3, []);
      (Some (mkFl 1 0), 1, [mkNcDef (Some 1) (Some (SPrefix (Some (ex_name [97])) None None)); mkNcDef (Some 2) (Some (SPrefix (Some (ex_name [97; 100])) None None))])] /\
  ex_packets (ex_told Segmented None) (ex_bytes 1500) =
    repeat (Some (mkFl 1 2), 0, []) 5 ++ [(Some (mkFl 1 1), 5, []);
      (Some (mkFl 1 0), 1, [mkNcDef (Some 1) (Some (SSeg (Some (ex_name [97])) (Some 16) None None)); mkNcDef (Some 2) (Some (SSeg (Some (ex_name [97; 100])) (Some 5) None None))])].
Proof.
  split; [split; [exact (log_exact_ok _ exact_log_exact)|vm_compute; discriminate]|].
  split; [vm_compute; reflexivity|]. split; vm_compute; reflexivity.
Qed.
