(* C40, C41: sizes of manifests. *)
From Coq Require Import ZArith List Bool Lia ZifyBool.
From Verif Require Import Py Tlv Float Core TlvProofs CoreProofs Flic FlicProofs Spec Crypto CryptoProofs PropsCrypto
  Optimizer OptimizerProofs Tree TreeSpec TreeProofs TreeFacts PropsTree ChunkProofs SizeProofs PropsChunk
  PropsOptimizer BuildProofs SizeNode.
Import ListNotations.
Open Scope Z_scope.
Ltac Zify.zify_post_hook ::= Z.div_mod_to_equations.
Opaque tlv_make tlv_wire tlv_deserialize.

(* ---------------- C41 ---------------- *)

(* The reference manifest with the returned number of pointers was built and
   fits; no reference manifest with more pointers fits. *)
Theorem C41_tight : forall P rnd now (o : opts P) x total k num k',
  seal_adds_tag P -> same_nonce_len rnd -> ctx_wf x ->
  max_pointers P rnd now o x total k = (Ok num, k') ->
  2 <= num /\
  (exists k1 p, ref_packet P rnd now o x total num k1 = (Ok p, k') /\ pkt_len p <= op_max o) /\
  (forall more k1 p k2, num < more -> ref_packet P rnd now o x total more k1 = (Ok p, k2) ->
     op_max o < pkt_len p).
Proof.
  intros P rnd now o x total k num k' HP HR Hx H.
  apply max_pointers_inv in H as (p1 & k1 & b1 & p2 & b2 & q & R1 & B1 & L1 & Eq & -> & Hn & R2 & B2 & L2).
  split; [exact Hn|]. split.
  - exists k1, p2. split; [exact R2|]. unfold pkt_len. rewrite B2. exact L2.
  - intros more kk p k2 Hm R. assert (1 <= more) as M1 by lia. assert (1 <= q + 1) as Q1 by lia.
    assert (1 <= 1) as O1 by lia.
    pose proof (ref_packet_inv _ _ _ _ _ _ _ _ _ _ Hx M1 R) as (_ & _ & _ & b & _ & _ & _ & B & _).
    unfold pkt_len. rewrite B.
    pose proof (ref_packet_diff P rnd now o x HP HR _ _ _ _ _ _ _ _ _ _ _ Hx M1 O1 R R1 B B1) as D.
    pose proof (ref_packet_diff P rnd now o x HP HR _ _ _ _ _ _ _ _ _ _ _ Hx Q1 O1 R2 R1 B2 B1) as D2.
    pose proof (ref_packet_inv _ _ _ _ _ _ _ _ _ _ Hx Q1 R2) as (_ & _ & _ & b2' & _ & _ & _ & B2' & _ & L16).
    assert (b2' = b2) as -> by congruence. pose proof (zlen_nonneg b1).
    apply int_div_floor in Eq; [lia|lia|]. change (2 ^ 40) with 1099511627776. lia.
Qed.

(* ---------------- C40 ---------------- *)

(* p is a data object no longer than allowed *)
Definition small_data {P} (o : opts P) (p : packet) : Prop :=
  (exists c, p_body p = BCO c /\ co_ptype c = Some PT_DATA) /\ pkt_len p <= op_max o.
(* p is a manifest object with name nm and the manifest expiry time, whose
   payload is a manifest with node nd, in clear or encrypted with one of the
   nonces, that is itself no longer than allowed *)
Definition tree_manifest {P} (rnd : nat -> bytes) (o : opts P) (nd : node) (nm : option name) (p : packet) : Prop :=
  exists k m w,
    match op_enc o with
    | ENone => m = mkMan None (MNode nd) None
    | EAead a => aead_create_manifest P a (rnd k) nd = Ok m
    | EOaep i => oaep_create_manifest P i false (rnd k) nd = Ok m
    end /\ man_wire m = Ok w /\ zlen w <= op_max o /\
    p_body p = BCO (mkCO nm (Some PT_MANIFEST) (Some w) (op_mexp o) None) /\ p_alg p = None /\ p_vpl p = None.

Lemma extra_le nd : (length (n_groups nd) <= 2)%nat -> extra nd <= 38.
Proof.
  assert (O : forall k n, 1 <= k -> over k n <= 8 - Z.min k 8).
  { intros k n Hk. destruct n as [n|]; cbn [over]; [|lia]. unfold int_width.
    repeat match goal with |- context [if ?c then _ else _] => destruct c end; lia. }
  assert (G : forall g, group_extra g <= 19).
  { intros g. unfold group_extra. destruct (hg_data g) as [d|]; [|lia].
    pose proof (O 1 (gd_subtree_size d) ltac:(lia)). pose proof (O 1 (gd_leaf_size d) ltac:(lia)).
    pose proof (O 3 (gd_start d) ltac:(lia)). lia. }
  intros L. unfold extra. destruct (n_groups nd) as [|a [|b [|c l]]]; cbn [map length] in *; rewrite ?zsum_cons; change (zsum []) with 0.
  - lia.
  - pose proof (G a). lia.
  - pose proof (G a). pose proof (G b). lia.
  - lia.
Qed.

Lemma emits_meta P o i l : forall id pkts ms, sha_ok P -> emits P o i id l pkts ms ->
  Forall (fun c => sha_len (cm_hash c) /\ 0 <= cm_bytes c) ms /\ Forall (small_data o) pkts.
Proof.
  induction l as [|b l IH]; intros id [|p pkts] [|m ms] HS H; cbn [emits] in H; try tauto; auto.
  destruct H as ((nm & w & h & _ & Eb & _ & _ & Ew & _ & Lw & _ & _ & Eh & ->) & H).
  apply IH in H as (H1 & H2); [|exact HS]. split; constructor; auto.
  - cbn [cm_hash cm_bytes]. split; [|apply zlen_nonneg]. unfold packet_hash in Eh. apply bind_ok in Eh as (w' & _ & Eh).
    apply bind_ok in Eh as (t & _ & Eh). apply Ok_inj in Eh. rewrite <- Eh. unfold sha_len. cbn [h_val]. unfold zlen.
    destruct (HS w') as (_ & ->). reflexivity.
  - split; [rewrite Eb; eexists; split; reflexivity|]. unfold pkt_len. now rewrite Ew.
Qed.

Lemma planned_groups P rnd now v nd : planned P rnd now v nd -> (length (n_groups nd) <= 2)%nat.
Proof.
  intros [(lo & hi & _ & _ & _ & ->)|(l & lo & hi & kids & _ & _ & _ & _ & _ & _ & _ & ->)].
  - unfold leaf_node. cbn [n_groups length]. lia.
  - unfold inner_node. cbn [n_groups]. destruct (nx_two _); cbn [length]; lia.
Qed.

Lemma build_sizes : forall P clog rnd now (o : opts P) nc data s r s',
  log_ok clog -> op_max o <= 2 ^ 24 -> sha_ok P -> seal_adds_tag P -> same_nonce_len rnd ->
  manifest_tree P clog rnd now o nc data s = (r, s') ->
  exists new, ms_out s' = ms_out s ++ new /\ Forall (fun p =>
    small_data o p \/ r = Ok p \/
    exists nd nm, tree_manifest rnd o nd nm p /\
      (exists v id, te_opt v = o /\ nctx_create P o nc = Ok (te_ctx v) /\ impl_name (nx_man (te_ctx v)) (Some id) = Ok nm /\
         planned P rnd now v nd) /\
      pkt_len p <= op_max o + name_len nm + exp_len (op_mexp o) + extra nd /\ extra nd <= 38) new.
Proof.
  intros P clog rnd now o nc data s r s' HL HM HS HP HR H.
  assert (T : forall k' x ps l pkts meta num r ts, setup P clog rnd now o nc data (ms_nonce s) k' x ps l pkts meta num r ->
    Forall (fun t => exists lv, wf P rnd now (env_of P o x meta r) lv t) ts ->
    Forall (fun p => exists nd nm, tree_manifest rnd o nd nm p /\
      (exists v id, te_opt v = o /\ nctx_create P o nc = Ok (te_ctx v) /\ impl_name (nx_man (te_ctx v)) (Some id) = Ok nm /\
         planned P rnd now v nd) /\
      pkt_len p <= op_max o + name_len nm + exp_len (op_mexp o) + extra nd /\ extra nd <= 38) (map mi_pkt (forest_infos ts))).
  { clear H r. intros k' x ps l pkts meta num r ts SU W.
    destruct SU as [Hc Hps Hp1 Hcut Hem _ Hlen Hnum Hopt Hp Hus].
    pose proof (emits_meta _ _ _ _ _ _ _ HS Hem) as (Hmeta & _).
    pose proof (emits_sizes _ _ _ _ _ _ _ Hem Hlen) as (Eb & _).
    pose proof (nctx_create_wf _ _ _ _ Hc) as Hx.
    set (v := env_of P o x meta r) in *.
    assert (zlen data = zsum (map cm_bytes (te_meta v))) as Htot.
    { cbn [te_meta v env_of]. rewrite Eb, zsum_concat. destruct Hcut as (-> & _). reflexivity. }
    apply Forall_forall. intros p Hp'. apply in_map_iff in Hp' as (i & <- & Hi).
    unfold forest_infos in Hi. apply in_concat in Hi as (is & His & Hi). apply in_rev, in_map_iff in His as (t & <- & Ht).
    rewrite Forall_forall in W. destruct (W t Ht) as (lv & Wt).
    apply (Permutation.Permutation_in _ (infos_subtrees t)) in Hi. apply in_map_iff in Hi as (u & <- & Hu).
    destruct (wf_sub P rnd now v t lv Wt u Hu) as (l' & _ & Wu).
    pose proof (wf_all_faithful P rnd now v l' u Hx Wu) as Fa. rewrite Forall_forall in Fa.
    destruct (Fa u (subtrees_self u)) as (Ca & En & _).
    exists (mi_node (top u)), (mi_name (top u)). split.
    { destruct Ca as (m & w & Hm & Hw & Hl & Hb & Ha & Hv & _). exists (mi_nonce (top u)), m, w. cbn [te_opt v env_of] in Hl. tauto. }
    split; [exists v, (mi_id (top u)); split; [reflexivity|]; split; [exact Hc|]; split; [exact En|]; eapply wf_planned; exact Wu|]. split.
    - eapply (tree_packet_len P rnd now v Hx HS Hmeta (zlen data) Htot HP HR); [exact Wu| |exact Hnum].
      unfold te_p, v. cbn [env_of te_m te_d]. lia.
    - apply extra_le. eapply planned_groups. eapply wf_planned. exact Wu. }
  apply (manifest_tree_ended P clog rnd now o nc data HL HM) in H as R. clear H. unfold ended in R.
  destruct r as [root|e].
  - destruct R as (k' & x & ps & l & pkts & meta & num & r & lv & t & np & b & k2 & SU & Re & _ & ->).
    exists (pkts ++ map mi_pkt (infos t) ++ [root]). cbn [ms_out]. split; [reflexivity|].
    pose proof (su_emits _ _ _ _ _ _ _ _ _ _ _ _ _ _ _ _ SU) as Hem.
    pose proof (emits_meta _ _ _ _ _ _ _ HS Hem) as (_ & Hd).
    apply Forall_app. split; [eapply Forall_impl; [|exact Hd]; auto|]. apply Forall_app. split.
    + pose proof (T _ _ _ _ _ _ _ _ [t] SU) as Y. rewrite forest_infos_one in Y.
      eapply Forall_impl; [|apply Y]; [auto|]. constructor; [|constructor]. exists lv. apply Re.
    + constructor; [auto|constructor].
  - destruct R as (_ & pkts & ts & E & R). exists (pkts ++ map mi_pkt (forest_infos ts)). split; [exact E|].
    apply Forall_app. split.
    + destruct pkts as [|p pkts]; [constructor|]. destruct R as (x & ps & l & meta & _ & _ & _ & _ & Hem & _); [left; discriminate|].
      pose proof (emits_meta _ _ _ _ _ _ _ HS Hem) as (_ & Hd). eapply Forall_impl; [|exact Hd]; auto.
    + destruct ts as [|t ts]; [constructor|].
      destruct R as (x & ps & l & meta & _ & _ & _ & _ & _ & R); [right; discriminate|].
      destruct R as (k' & num & r & SU & W & _); [discriminate|].
      eapply Forall_impl; [|apply (T _ _ _ _ _ _ _ _ _ SU W)]; auto.
Qed.

(* Every packet that a build puts to the output, whether it finishes or raises,
   is a data object that fits, or the root manifest returned, or a manifest of
   the tree that exceeds max_packet_size at most by its name, its expiry time
   and the bytes of its size and start id fields beyond one and three. *)
Theorem C40_bound : forall P clog rnd now (o : opts P) nc data s r s',
  log_ok clog -> op_max o <= 2 ^ 24 -> sha_ok P -> seal_adds_tag P -> same_nonce_len rnd ->
  manifest_tree P clog rnd now o nc data s = (r, s') ->
  exists new, ms_out s' = ms_out s ++ new /\ Forall (fun p =>
    small_data o p \/ r = Ok p \/
    exists nd nm, tree_manifest rnd o nd nm p /\
      (exists x id, nctx_create P o nc = Ok x /\ impl_name (nx_man x) (Some id) = Ok nm) /\
      pkt_len p <= op_max o + name_len nm + exp_len (op_mexp o) + extra nd /\ extra nd <= 38) new.
Proof.
  intros P clog rnd now o nc data s r s' HL HM HS HP HR H.
  destruct (build_sizes _ _ _ _ _ _ _ _ _ _ HL HM HS HP HR H) as (new & E & F). exists new. split; [exact E|].
  eapply Forall_impl; [|exact F]. intros p [Hp|[Hp|(nd & nm & Tm & (v & id & _ & Hc & Hn & _) & B)]]; eauto 12.
Qed.

Lemma nctx_hashed P (o : opts P) nc x : op_type o = Hashed -> nctx_create P o nc = Ok x ->
  (forall id, impl_name (nx_man x) id = Ok None) /\ uses_name_id (nx_man x) = false /\ uses_name_id (nx_data x) = false.
Proof.
  intros Ht H. unfold nctx_create in H. rewrite Ht in H. unfold create_hashed in H. apply bind_ok in H as (t & _ & H).
  assert (S : forall nc l n b i, schema_create P o nc l n b = Ok i -> exists ls f, im_schema i = SHash ls f).
  { intros nc' l n b i E. unfold schema_create in E. rewrite Ht in E. unfold impl_make in E. apply bind_ok in E as (? & _ & E).
    apply bind_ok in E as (? & _ & E). apply Ok_inj in E. subst i. cbn [im_schema]. eauto. }
  cbv zeta in H. match type of H with (if ?c then _ else _) = _ => destruct c end.
  - unfold nctx_one in H. apply bind_ok in H as (i & Hi & H). apply Ok_inj in H. subst x. cbn [nx_man nx_data].
    apply S in Hi as (ls & f & E). unfold impl_name, uses_name_id. rewrite E. auto.
  - unfold nctx_two in H. apply bind_ok in H as (i & Hi & H). apply bind_ok in H as (j & Hj & H). apply Ok_inj in H. subst x.
    cbn [nx_man nx_data]. apply S in Hi as (ls & f & E). apply S in Hj as (ls' & f' & E').
    unfold impl_name, uses_name_id. rewrite E, E'. auto.
Qed.

(* Nameless manifests without expiry time and group sizes fit. *)
Theorem C40_fits : forall P clog rnd now (o : opts P) nc data s r s',
  log_ok clog -> op_max o <= 2 ^ 24 -> sha_ok P -> seal_adds_tag P -> same_nonce_len rnd ->
  op_type o = Hashed -> op_mexp o = None -> op_gsize o = false -> op_gleaf o = false ->
  manifest_tree P clog rnd now o nc data s = (r, s') ->
  exists new, ms_out s' = ms_out s ++ new /\ Forall (fun p => r = Ok p \/ pkt_len p <= op_max o) new.
Proof.
  intros P clog rnd now o nc data s r s' HL HM HS HP HR Ht He Hg Hl H.
  destruct (build_sizes _ _ _ _ _ _ _ _ _ _ HL HM HS HP HR H) as (new & E & F). exists new. split; [exact E|].
  eapply Forall_impl; [|exact F]. intros p [(_ & Hp)|[Hp|(nd & nm & Tm & (v & id & Ev & Hc & Hn & Pl) & B & _)]]; auto.
  right. destruct (nctx_hashed P o nc _ Ht Hc) as (En & U1 & U2). rewrite En in Hn. apply Ok_inj in Hn. subst nm.
  rewrite He in B. cbn [name_len exp_len] in B.
  assert (extra nd = 0) as X.
  { destruct Pl as [(lo & hi & _ & _ & _ & ->)|(l & lo & hi & kids & _ & _ & _ & _ & _ & _ & _ & ->)].
    - unfold leaf_node, extra. cbn [n_groups map group_extra hg_data]. unfold group_extra.
      cbn [hg_data gd_subtree_size gd_leaf_size gd_start]. rewrite Ev, Hg, Hl, U1. reflexivity.
    - unfold inner_node, extra. cbn [n_groups]. unfold group_extra. rewrite Ev, Hg, Hl, U1, U2.
      destruct (nx_two _); reflexivity. }
  lia.
Qed.

(* The tree manifests of 2400 bytes in packets of at most 305, 315 and 315 bytes:
   one is too long because of its name, because of its group sizes, because of
   its expiry time. *)
Definition ex_big (ty : stype) (mexp : option fl) (g : bool) (mx : Z) : opts toy :=
  mkOpts toy (Some (ex_name [97])) ty None (Some (ex_name (repeat 97 9))) (Some (ex_name [97; 100]))
    None None None mexp None ENone true g g None mx.

(* the hypotheses about the primitives hold for the toy primitives *)
Example toy_sizes : log_ok exact_log /\ sha_ok toy /\ seal_adds_tag toy /\
  same_nonce_len (fun _ => []) /\ same_nonce_len (fun k => repeat (Z.of_nat k) 12).
Proof.
  split; [apply log_exact_ok, exact_log_exact|]. split.
  { intros b. split; [|apply repeat_length]. intros y Hy. apply repeat_spec in Hy. subst y. unfold toy_sum. lia. }
  split; [intros a k iv pt aad c [= <-]; rewrite zlen_app; reflexivity|]. split; intros k k'; reflexivity.
Qed.

Theorem C40_refuted : Forall (fun o : opts toy =>
    exists root s' p nd nm, manifest_tree toy exact_log (fun _ => []) (mkFl 0 0) o 1 (repeat 7 2400) (mkMst [] 0) = (Ok root, s') /\
      In p (ms_out s') /\ p <> root /\ tree_manifest (fun _ => []) o nd nm p /\ op_max o < pkt_len p)
  [ex_big Prefixed None false 305; ex_big Hashed None true 315; ex_big Hashed (Some (mkFl 1 10)) false 315].
Proof.
  assert (X : forall o, op_max o <= 2 ^ 24 -> let q := manifest_tree toy exact_log (fun _ => []) (mkFl 0 0) o 1 (repeat 7 2400) (mkMst [] 0) in
    match q with
    | (Ok r, s) => match nth_error (ms_out s) 9 with
                   | Some p => op_max o < pkt_len p /\ p <> r
                   | None => False end
    | _ => False
    end -> exists root s' p nd nm, q = (Ok root, s') /\
      In p (ms_out s') /\ p <> root /\ tree_manifest (fun _ => []) o nd nm p /\ op_max o < pkt_len p).
  { intros o Ho. cbv zeta. destruct toy_sizes as (T1 & T2 & T3 & T4 & _).
    destruct (manifest_tree toy _ _ _ _ _ _ _) as [[r|] s] eqn:Em; [|tauto].
    destruct (C40_bound _ _ _ _ _ _ _ _ _ _ T1 Ho T2 T3 T4 Em) as (new & En & F). cbn [ms_out app] in En.
    destruct (nth_error (ms_out s) 9) as [p|] eqn:E; [|tauto]. intros (H & N). apply nth_error_In in E.
    rewrite En, Forall_forall in *. destruct (F p E) as [(_ & Hs)|[Hs|(nd & nm & T & _)]]; [lia|congruence|].
    exists r, s, p, nd, nm. rewrite En. tauto. }
  constructor; [|constructor; [|constructor; [|constructor]]]; (apply X; [vm_compute; discriminate|]).
  all: match goal with |- match ?q with _ => _ end => let v := eval vm_compute in q in change q with v end; cbv beta iota.
  all: cbn [ms_out nth_error].
  all: split; [vm_compute; reflexivity|discriminate].
Qed.

(* C40_fits: 2400 bytes, nine chunks, two manifests of the tree and the root *)
Example C40_ex : let o := ex_big Hashed None false 315 in
  op_max o <= 2 ^ 24 /\ op_type o = Hashed /\ op_mexp o = None /\ op_gsize o = false /\ op_gleaf o = false /\
  exists root s', manifest_tree toy exact_log (fun _ => []) (mkFl 0 0) o 1 (repeat 7 2400) (mkMst [] 0) = (Ok root, s') /\
    map pkt_len (ms_out s') = repeat 315 8 ++ [69; 304; 160; 127].
Proof.
  cbv zeta. split; [vm_compute; discriminate|]. do 4 (split; [reflexivity|]).
  assert (X : match manifest_tree toy exact_log (fun _ => []) (mkFl 0 0) (ex_big Hashed None false 315) 1 (repeat 7 2400) (mkMst [] 0) with
    | (Ok _, s) => map pkt_len (ms_out s) | _ => [] end = repeat 315 8 ++ [69; 304; 160; 127]) by (vm_compute; reflexivity).
  destruct (manifest_tree toy _ _ _ _ _ _ _) as [[r|] s]; [|discriminate]. exists r, s. split; [reflexivity|exact X].
Qed.

(* C41: encrypted and clear *)
Example C41_ex : exists x, ctx_wf x /\
  max_pointers toy (fun k => repeat (Z.of_nat k) 12) (mkFl 0 0) (te_opt (ex_env Segmented ex_key16 true)) x 2400 0%nat = (Ok 3, 2%nat) /\
  max_pointers toy (fun k => repeat (Z.of_nat k) 12) (mkFl 0 0) (te_opt (ex_env Segmented ENone true)) x 2400 0%nat = (Ok 5, 0%nat).
Proof.
  exists (ex_ctx Segmented). split.
  { apply (nctx_create_wf toy (ex_opts Segmented 300) 1). vm_compute; reflexivity. }
  split; vm_compute; reflexivity.
Qed.

Print Assumptions C40_bound.
Print Assumptions C40_fits.
Print Assumptions C40_refuted.
Print Assumptions C41_tight.
