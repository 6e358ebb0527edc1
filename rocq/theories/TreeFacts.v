(* What the trees of TreeSpec.v look like from outside. *)
From Coq Require Import ZArith List Bool Lia ZifyBool Permutation.
From Verif Require Import Py Tlv Float Core TlvProofs CoreProofs Flic FlicProofs PropsFlic Crypto
  CryptoProofs Optimizer OptimizerProofs Tree TreeSpec TreeProofs.
Import ListNotations.
Open Scope Z_scope.
Opaque tlv_make tlv_wire tlv_deserialize.

(* induction over trees with the children *)
Section TreeInd.
Variable Q : tree -> Prop.
Hypothesis HL : forall i lo hi, Q (Leaf i lo hi).
Hypothesis HI : forall i lo hi kids, Forall Q kids -> Q (Inner i lo hi kids).
Fixpoint tree_ind2 (t : tree) : Q t :=
  match t with
  | Leaf i lo hi => HL i lo hi
  | Inner i lo hi kids =>
      HI i lo hi kids
        ((fix go ks := match ks return Forall Q ks with
                       | [] => Forall_nil Q
                       | k :: ks' => Forall_cons k (tree_ind2 k) (go ks')
                       end) kids)
  end.
End TreeInd.

Lemma perm_concat_rev {A} (l : list (list A)) : Permutation (concat (rev l)) (concat l).
Proof.
  induction l as [|a l IH]; [reflexivity|]. cbn [rev concat]. rewrite concat_app. cbn [concat].
  rewrite app_nil_r. rewrite IH. apply Permutation_app_comm.
Qed.
Lemma forest_infos_perm ts : Permutation (forest_infos ts) (flat_map infos ts).
Proof. unfold forest_infos. rewrite perm_concat_rev, flat_map_concat_map. reflexivity. Qed.
Lemma flat_map_perm {A B} (f g : A -> list B) l : Forall (fun a => Permutation (f a) (g a)) l ->
  Permutation (flat_map f l) (flat_map g l).
Proof. induction 1 as [|a l H _ IH]; [reflexivity|]. cbn [flat_map]. now rewrite H, IH. Qed.
Lemma map_flat_map {A B C} (f : B -> C) (g : A -> list B) l :
  map f (flat_map g l) = flat_map (fun a => map f (g a)) l.
Proof. induction l as [|a l IH]; [reflexivity|]. cbn [flat_map]. now rewrite map_app, IH. Qed.
(* the manifests written are the tops of the subtrees *)
Lemma infos_subtrees t : Permutation (infos t) (map top (subtrees t)).
Proof.
  induction t as [i lo hi|i lo hi kids IH] using tree_ind2; [reflexivity|].
  rewrite infos_inner. cbn [subtrees map top]. rewrite Permutation_app_comm. cbn [app].
  apply perm_skip. rewrite forest_infos_perm, map_flat_map. apply flat_map_perm.
  eapply Forall_impl; [|exact IH]. intros k Hk. now rewrite Hk.
Qed.
Lemma subtrees_self t : In t (subtrees t).
Proof. destruct t; now left. Qed.
Lemma subtrees_trans t : forall u w, In u (subtrees t) -> In w (subtrees u) -> In w (subtrees t).
Proof.
  induction t as [i lo hi|i lo hi kids IH] using tree_ind2; intros u w Hu Hw.
  - destruct Hu as [<-|[]]. exact Hw.
  - destruct Hu as [<-|Hu]; [exact Hw|]. cbn [subtrees]. right. apply in_flat_map in Hu as (k & Hk & Hu).
    apply in_flat_map. exists k. split; [assumption|]. rewrite Forall_forall in IH. now apply (IH k Hk u).
Qed.
Lemma zrange_in a b x : In x (zrange a b) <-> a <= x < b.
Proof. unfold zrange. rewrite zseq_in. lia. Qed.
Lemma zrange_nodup a b : NoDup (zrange a b).
Proof.
  unfold zrange. generalize (Z.to_nat (b - a)) as k. intros k. revert a. induction k as [|k IH]; intros a.
  - constructor.
  - cbn [zseq]. constructor; [|apply IH]. rewrite zseq_in. lia.
Qed.

Section Facts.
Context (P : prims).
Variable rnd : nat -> bytes.
Variable now : fl.
Variable v : tenv P.
Let o := te_opt v.
Let x := te_ctx v.

Lemma wf_inner l i lo hi kids : wf P rnd now v l (Inner i lo hi kids) ->
  exists l', l = S l' /\ mi_level i = Z.of_nat l /\ made P rnd now v i /\ 0 <= lo < hi /\
    follows P v hi kids /\ hi - lo <= te_d v /\ kids <> [] /\ zlen kids <= te_m v /\
    mi_node i = inner_node P v lo hi kids /\
    map (fun t => mi_id (top t)) kids = zrange (first_id kids) (first_id kids + zlen kids) /\
    Forall (wf P rnd now v l') kids.
Proof. destruct l as [|l]; [contradiction|]. intros H. exists l. split; [reflexivity|exact H]. Qed.

Lemma wf_sub t : forall l, wf P rnd now v l t -> forall u, In u (subtrees t) ->
  exists l', (l' <= l)%nat /\ wf P rnd now v l' u.
Proof.
  induction t as [i lo hi|i lo hi kids IH] using tree_ind2; intros l W u Hu.
  - destruct Hu as [<-|[]]. exists l. split; [lia|assumption].
  - destruct Hu as [<-|Hu]; [exists l; split; [lia|assumption]|].
    apply wf_inner in W as (l' & -> & W). destruct W as (_ & _ & _ & _ & _ & _ & _ & _ & _ & W).
    apply in_flat_map in Hu as (k & Hk & Hu). rewrite Forall_forall in IH, W.
    destruct (IH k Hk l' (W k Hk) u Hu) as (l2 & L2 & W2). exists l2. split; [lia|assumption].
Qed.

(* ---------------- the packets ---------------- *)

Lemma fac_node_carries nd k nm p : fst (fac_node_packet P rnd now o nd nm k) = Ok p ->
  carries P rnd v nd k nm p.
Proof.
  unfold fac_node_packet, fac_packet, fac_build, fac_from_node, carries, manifest_for.
  unfold sbind, lift, sget, smod, sret. fold o.
  assert (X : forall m (k1 : nat),
    fst (let (r, s') := match man_wire m with Ok a => (match guard (zlen a <=? op_max o) ValueError with Ok _ => (Ok m, k1) | Err e => (Err e, k1) end) | Err e => (Err e, k1) end in
      match r with
      | Ok a => match man_content a nm (op_mexp o) with
         | Ok a0 => match create_content_object a0 with
            | Ok a1 => match packet_hash (pr_sha P) a1 with Ok _ => (Ok a1, s') | Err e => (Err e, s') end
            | Err e => (Err e, s') end
         | Err e => (Err e, s') end
      | Err e => (Err e, s') end) = Ok p ->
    exists w, man_wire m = Ok w /\ zlen w <= op_max o /\
      p_body p = BCO (mkCO nm (Some PT_MANIFEST) (Some w) (op_mexp o) None) /\ p_alg p = None /\
      (p_vpl p = None /\ create_content_object (mkCO nm (Some PT_MANIFEST) (Some w) (op_mexp o) None) = Ok p) /\
      exists b, packet_wire p = Ok b).
  { intros m k1. destruct (man_wire m) as [w|] eqn:Ew; [|discriminate].
    destruct (zlen w <=? op_max o) eqn:El; [|discriminate]. cbn [guard].
    unfold man_content. rewrite Ew. cbn [bind]. destruct (payload_tlv w); [|discriminate]. cbn [bind].
    destruct (co_tlv _) eqn:Ec; [|discriminate]. cbn [bind]. unfold create_content_object. rewrite Ec. cbn [bind].
    destruct (packet_wire _) as [b|] eqn:Ep; [|discriminate]. cbn [bind].
    destruct (packet_hash _ _); [|discriminate]. cbn [fst]. intros H. apply Ok_inj in H. subst p.
    exists w. do 2 (split; [first [reflexivity|lia]|]). do 2 (split; [reflexivity|]). split; [|now exists b].
    split; [reflexivity|]. unfold create_content_object. rewrite Ec. cbn [bind]. rewrite Ep. reflexivity. }
  unfold aead_create_manifest, oaep_create_manifest.
  destruct (op_enc o) as [|a|i].
  - destruct (man_wire (mkMan None (MNode nd) None)) eqn:E; [|discriminate]. cbn beta iota.
    intros H. apply (X (mkMan None (MNode nd) None) k) in H || (specialize (X (mkMan None (MNode nd) None) k); rewrite E in X; apply X in H).
    destruct H as (w & H). exists (mkMan None (MNode nd) None), w. split; [reflexivity|exact H].
  - destruct (bind (aead_encrypt P a (rnd k) nd) manifest_of) as [m|] eqn:E; [|discriminate]. cbn beta iota.
    intros H. apply (X m (S k)) in H. destruct H as (w & H). exists m, w. split; [reflexivity|exact H].
  - destruct (bind (oaep_encrypt P i false (rnd k) nd) manifest_of) as [m|] eqn:E; [|discriminate]. cbn beta iota.
    intros H. apply (X m (S k)) in H. destruct H as (w & H). exists m, w. split; [reflexivity|exact H].
Qed.

(* ---------------- the groups ---------------- *)

(* the chunks have consecutive numbers *)
Definition numbered : Prop := exists z, forall i, 0 <= i < zlen (te_meta v) -> cm_num (chunk_meta P v i) = z + i.

(* a hash group with exactly the pointers to the targets [ts] *)
Definition group_for (g : hgroup) (ts : list target) : Prop :=
  exists gd, hg_data g = Some gd /\ hg_ptrs g = Some (map (tg_hash P v) ts) /\
    gd_leaf_size gd = opt_if (op_gleaf o) (zsum (map (tg_direct P v) ts)) /\
    gd_subtree_size gd = opt_if (op_gsize o)
      (zsum (map (if op_nsize o then tg_bytes P v else tg_direct P v) ts)) /\
    (ts <> [] -> gd_nc_id gd <> None) /\
    (forall t, In t ts -> gd_nc_id gd = Some (im_nc (tg_impl P v t))) /\
    if uses_name_id (nx_man x)
    then exists s, gd_start gd = Some s /\
           (numbered -> forall j t, nth_error ts j = Some t -> tg_num P v t = s + Z.of_nat j)
    else gd_start gd = None.

Lemma map_chunks (f : target -> Z) lo hi : map f (map TChunk (zrange lo hi)) = map (fun i => f (TChunk i)) (zrange lo hi).
Proof. apply map_map. Qed.
Lemma map_kids {B} (f : target -> B) kids : map f (map TKid kids) = map (fun t => f (TKid t)) kids.
Proof. apply map_map. Qed.
Lemma chunk_sum f lo hi : (forall i, f (TChunk i) = cm_bytes (chunk_meta P v i)) ->
  zsum (map f (map TChunk (zrange lo hi))) = chunk_bytes P v (zrange lo hi).
Proof. intros H. rewrite map_map. unfold chunk_bytes. f_equal. apply map_ext. exact H. Qed.
Lemma zsum_zero {A} (f : A -> Z) l : (forall a, f a = 0) -> zsum (map f l) = 0.
Proof. intros H. induction l as [|a l IH]; [reflexivity|]. cbn [map]. rewrite zsum_cons, IH, H. lia. Qed.
Lemma kids_direct kids : zsum (map (tg_direct P v) (map TKid kids)) = 0.
Proof. rewrite map_map. now apply zsum_zero. Qed.
Lemma kids_sum kids :
  zsum (map (if op_nsize o then tg_bytes P v else tg_direct P v) (map TKid kids)) = kids_bytes P v kids.
Proof.
  unfold kids_bytes. fold o. destruct (op_nsize o).
  - rewrite map_map. reflexivity.
  - apply kids_direct.
Qed.
Lemma chunk_sum2 lo hi :
  zsum (map (if op_nsize o then tg_bytes P v else tg_direct P v) (map TChunk (zrange lo hi)))
  = chunk_bytes P v (zrange lo hi).
Proof. destruct (op_nsize o); apply chunk_sum; reflexivity. Qed.
Lemma zrange_nth lo hi j i : nth_error (zrange lo hi) j = Some i -> i = lo + Z.of_nat j /\ lo <= i < hi.
Proof.
  intros H. pose proof (nth_error_In _ _ H) as I. apply zrange_in in I. split; [|lia].
  unfold zrange in H. assert (H' : (j < length (zseq lo (Z.to_nat (hi - lo))))%nat) by (apply nth_error_Some; congruence).
  rewrite zseq_length in H'. rewrite (nth_error_nth' _ 0) in H by (rewrite zseq_length; lia).
  rewrite zseq_nth in H by lia. congruence.
Qed.
Lemma chunks_num lo hi j t : numbered -> 0 <= lo -> hi <= zlen (te_meta v) ->
  nth_error (map TChunk (zrange lo hi)) j = Some t -> tg_num P v t = cm_num (chunk_meta P v lo) + Z.of_nat j.
Proof.
  intros (z & N) L H E. rewrite nth_error_map in E. destruct (nth_error (zrange lo hi) j) as [i|] eqn:Ei; [|discriminate].
  injection E as <-. apply zrange_nth in Ei. cbn [tg_num]. rewrite !N by lia. lia.
Qed.
Lemma kids_num kids j t :
  map (fun t => mi_id (top t)) kids = zrange (first_id kids) (first_id kids + zlen kids) ->
  nth_error (map TKid kids) j = Some t -> tg_num P v t = first_id kids + Z.of_nat j.
Proof.
  intros H E. rewrite nth_error_map in E. destruct (nth_error kids j) as [k|] eqn:Ek; [|discriminate].
  injection E as <-. cbn [tg_num].
  assert (X : nth_error (map (fun t => mi_id (top t)) kids) j = Some (mi_id (top k)))
    by (rewrite nth_error_map, Ek; reflexivity).
  rewrite H in X. apply zrange_nth in X. lia.
Qed.

Lemma chunk_group lo hi nc : 0 <= lo -> hi <= zlen (te_meta v) -> lo < hi ->
  nc = im_nc (nx_data x) ->
  group_for (mkHG (Some (mkGD (opt_if (op_gsize o) (chunk_bytes P v (zrange lo hi))) None
                     (opt_if (op_gleaf o) (chunk_bytes P v (zrange lo hi))) None (Some nc)
                     (opt_if (uses_name_id (nx_man x)) (cm_num (chunk_meta P v lo)))))
               (Some (chunk_hashes P v lo hi))) (map TChunk (zrange lo hi)).
Proof.
  intros L1 L2 L3 ->. eexists. split; [reflexivity|]. cbn [hg_ptrs gd_leaf_size gd_subtree_size gd_nc_id gd_start].
  split; [now rewrite map_map|]. rewrite chunk_sum by reflexivity. rewrite chunk_sum2.
  do 2 (split; [reflexivity|]). split; [discriminate|]. split.
  - intros t Ht. apply in_map_iff in Ht as (i & <- & _). reflexivity.
  - unfold opt_if. destruct (uses_name_id (nx_man x)); [|reflexivity]. eexists. split; [reflexivity|].
    intros N j t E. now apply (chunks_num lo hi).
Qed.

Lemma groups_targets l u : ctx_wf x -> wf P rnd now v l u ->
  exists parts, Forall2 group_for (n_groups (mi_node (top u))) parts /\
    concat parts = targets u /\ Forall (fun p => p <> []) parts.
Proof.
  intros Hx W. assert (Ne : forall lo hi, lo < hi -> map TChunk (zrange lo hi) <> [] ).
  { intros lo hi H. rewrite zrange_cons by lia. discriminate. }
  destruct u as [i lo hi|i lo hi kids]; cbn [top targets].
  - apply wf_leaf in W as (_ & _ & L & L' & _ & ->). exists [map TChunk (zrange lo hi)].
    cbn [leaf_node n_groups]. split; [|split].
    + constructor; [|constructor]. apply chunk_group; solve [lia|reflexivity].
    + cbn [concat]. apply app_nil_r.
    + constructor; [|constructor]. apply Ne. lia.
  - apply wf_inner in W as (l' & -> & _ & _ & L & (e' & L' & _) & _ & K0 & _ & -> & Kid & _).
    assert (Nk : map TKid kids <> []) by (destruct kids; [congruence|discriminate]).
    unfold inner_node. cbn [n_groups]. fold x o. unfold ctx_wf in Hx. destruct (nx_two x) eqn:Tw.
    + exists [map TChunk (zrange lo hi); map TKid kids]. split; [|split].
      * constructor; [|constructor; [|constructor]].
        -- destruct Hx as [_ <-]. apply chunk_group; solve [lia|reflexivity].
        -- eexists. split; [reflexivity|]. cbn [hg_ptrs gd_leaf_size gd_subtree_size gd_nc_id gd_start].
           split; [now rewrite map_map|]. rewrite kids_direct, kids_sum. do 2 (split; [reflexivity|]).
           split; [discriminate|]. split.
           ++ intros t Ht. apply in_map_iff in Ht as (k & <- & _). reflexivity.
           ++ unfold opt_if. destruct (uses_name_id (nx_man x)); [|reflexivity]. eexists. split; [reflexivity|].
              intros _ j t E. now apply (kids_num kids).
      * cbn [concat]. now rewrite app_nil_r.
      * constructor; [apply Ne; lia|]. constructor; [assumption|constructor].
    + destruct Hx as [Hx1 Hx2]. exists [map TChunk (zrange lo hi) ++ map TKid kids]. split; [|split].
      * constructor; [|constructor]. eexists. split; [reflexivity|].
        cbn [hg_ptrs gd_leaf_size gd_subtree_size gd_nc_id gd_start].
        split; [now rewrite map_app, !map_map|]. rewrite !map_app, !zsum_app.
        rewrite kids_direct, kids_sum, chunk_sum by reflexivity. rewrite chunk_sum2, Z.add_0_r.
        do 2 (split; [reflexivity|]). split; [discriminate|]. split.
        -- intros t Ht. apply in_app_iff in Ht as [Ht|Ht]; apply in_map_iff in Ht as (k & <- & _); cbn [tg_impl].
           ++ fold x. now rewrite Hx1.
           ++ reflexivity.
        -- now rewrite Hx2.
      * cbn [concat]. apply app_nil_r.
      * constructor; [|constructor]. destruct (map TChunk (zrange lo hi)) eqn:E; [now apply Ne in E|discriminate].
Qed.

(* iterating a node of the tree gives its targets *)
Definition tg_hiv (t : target) : hiv :=
  mkHiv (im_nc (tg_impl P v t)) (tg_hash P v t)
    (opt_if (uses_name_id (nx_man x)) (tg_num P v t)).
Lemma group_items_for g ts : numbered -> ts <> [] -> group_for g ts -> iterable g (map tg_hiv ts).
Proof.
  intros N Ne (gd & Hg & Hp & _ & _ & Hn & Hi & Hs). exists (map (tg_hash P v) ts). split; [assumption|]. right.
  destruct ts as [|t0 ts0]; [congruence|]. exists gd, (im_nc (tg_impl P v t0)). split; [assumption|].
  split; [apply Hi; now left|]. set (ts := t0 :: ts0) in *. set (nc := im_nc _).
  assert (Hnc : forall t, In t ts -> im_nc (tg_impl P v t) = nc).
  { intros t Ht. pose proof (Hi t Ht) as H1. pose proof (Hi t0 ltac:(now left)) as H2. fold nc in H2. congruence. }
  clearbody nc ts. clear Hn Hi Ne t0 ts0 Hp Hg. unfold group_items, tg_hiv.
  rewrite map_length.
  assert (X : forall k, (forall j t, nth_error ts j = Some t ->
      opt_if (uses_name_id (nx_man x)) (tg_num P v t) = option_map (fun s => s + Z.of_nat (k + j)) (gd_start gd)) ->
    map (fun t => mkHiv (im_nc (tg_impl P v t)) (tg_hash P v t) (opt_if (uses_name_id (nx_man x)) (tg_num P v t))) ts
    = map (fun ip => mkHiv nc (snd ip) (option_map (fun s => s + Z.of_nat (fst ip)) (gd_start gd)))
        (combine (seq k (length ts)) (map (tg_hash P v) ts))).
  { clear Hs. induction ts as [|t ts IH]; intros k H; [reflexivity|]. cbn [map length seq combine fst snd]. f_equal.
    - rewrite (H 0%nat t eq_refl), Nat.add_0_r, (Hnc t) by now left. reflexivity.
    - apply IH.
      + intros; apply Hnc; now right.
      + intros j u Hj. rewrite (H (S j) u Hj). now replace (k + S j)%nat with (S k + j)%nat by lia. }
  apply X. intros j t Hj. unfold opt_if. destruct (uses_name_id (nx_man x)).
  - destruct Hs as (s & -> & Hs). cbn [option_map]. now rewrite (Hs N j t Hj).
  - now rewrite Hs.
Qed.
Lemma node_items l u : ctx_wf x -> numbered -> wf P rnd now v l u ->
  node_iter (n_groups (mi_node (top u))) = (map tg_hiv (targets u), None).
Proof.
  intros Hx N W. destruct (groups_targets l u Hx W) as (parts & F & C & Ne).
  rewrite (C18_iteration_order _ (map (map tg_hiv) parts)).
  - f_equal. rewrite <- C. symmetry. apply concat_map.
  - clear C. induction F as [|g p gs ps H F IH]; [constructor|]. inversion Ne; subst. constructor; [|now apply IH].
    now apply group_items_for.
Qed.
Lemma node_ptrs_targets l u : ctx_wf x -> wf P rnd now v l u ->
  node_ptrs (mi_node (top u)) = map (tg_hash P v) (targets u).
Proof.
  intros Hx W. destruct (groups_targets l u Hx W) as (parts & F & C & _). rewrite <- C. unfold node_ptrs.
  clear C. induction F as [|g p gs ps H F IH]; [reflexivity|]. cbn [flat_map concat]. rewrite map_app, <- IH.
  destruct H as (gd & _ & -> & _). reflexivity.
Qed.
Lemma wf_faithful l u : ctx_wf x -> wf P rnd now v l u -> faithful P rnd v u.
Proof.
  intros Hx W. destruct (wf_made _ _ _ _ _ _ W) as (H1 & H2 & H3). split; [|split; [|split]].
  - now apply fac_node_carries.
  - exact H1.
  - exact H3.
  - now apply (node_ptrs_targets l).
Qed.
Lemma wf_all_faithful l t : ctx_wf x -> wf P rnd now v l t -> Forall (faithful P rnd v) (subtrees t).
Proof.
  intros Hx W. apply Forall_forall. intros u Hu. destruct (wf_sub t l W u Hu) as (l' & _ & W').
  now apply (wf_faithful l').
Qed.
End Facts.
