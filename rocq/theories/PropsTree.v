(* C28-C34, C37-C39, C57: the tree that the builder builds. *)
From Coq Require Import ZArith List Bool Lia ZifyBool Permutation.
From Verif Require Import Py Tlv Float Core TlvProofs CoreProofs Flic FlicProofs PropsFlic Crypto
  CryptoProofs PropsCrypto Optimizer OptimizerProofs Tree TreeSpec TreeProofs TreeFacts PropsOptimizer.
Import ListNotations.
Open Scope Z_scope.
Opaque tlv_make tlv_wire tlv_deserialize.

(* ---------------- lists ---------------- *)

Lemma flat_map_app_perm {A B} (f g : A -> list B) l :
  Permutation (flat_map (fun a => f a ++ g a) l) (flat_map f l ++ flat_map g l).
Proof.
  induction l as [|a l IH]; [reflexivity|]. cbn [flat_map]. rewrite IH, <- !app_assoc.
  apply Permutation_app_head. rewrite !app_assoc. apply Permutation_app_tail, Permutation_app_comm.
Qed.
Lemma flat_map_swap {A B C} (f : A -> B -> list C) la lb :
  Permutation (flat_map (fun a => flat_map (f a) lb) la) (flat_map (fun b => flat_map (fun a => f a b) la) lb).
Proof.
  revert lb. induction la as [|a la IH]; intros lb; cbn [flat_map].
  - now rewrite flat_map_nil.
  - rewrite IH. symmetry. apply (flat_map_app_perm (f a) (fun b => flat_map (fun a => f a b) la)).
Qed.
Lemma flat_map_one (L : list Z) (z i : Z) : NoDup L -> In z L ->
  flat_map (fun j => if z =? j then [i] else []) L = [i].
Proof.
  intros N I. induction N as [|a L Na N IH]; [contradiction|]. cbn [flat_map]. destruct I as [->|I].
  - rewrite Z.eqb_refl. cbn [app]. f_equal. apply flat_map_nil. intros b Hb.
    destruct (z =? b) eqn:E; [|reflexivity]. apply Z.eqb_eq in E. subst. contradiction.
  - destruct (z =? a) eqn:E; [apply Z.eqb_eq in E; subst; contradiction|]. now apply IH.
Qed.
Lemma ids_at_perm L : NoDup L -> forall t, (forall i, In i (infos t) -> In (mi_level i) L) ->
  Permutation (flat_map (fun j => ids_at j t) L) (map mi_id (infos t)).
Proof.
  intros N. induction t as [i lo hi|i lo hi kids IH] using tree_ind2; intros H; cbn [ids_at].
  - rewrite flat_map_one; [reflexivity|assumption|]. apply H. now left.
  - rewrite (flat_map_app_perm (fun j => if mi_level i =? j then [mi_id i] else [])).
    rewrite flat_map_one by (try assumption; apply H; rewrite infos_inner; apply in_app_iff; right; now left).
    rewrite infos_inner, map_app. cbn [map]. rewrite Permutation_app_comm. apply Permutation_app_tail.
    rewrite (flat_map_swap (fun j k => ids_at j k)). rewrite (Permutation_map mi_id (forest_infos_perm kids)).
    rewrite map_flat_map. apply flat_map_perm. apply Forall_forall. intros k Hk. rewrite Forall_forall in IH.
    apply IH; [assumption|]. intros j Hj. apply H. rewrite infos_inner. apply in_app_iff. left.
    apply (Permutation_in _ (Permutation_sym (forest_infos_perm kids))). apply in_flat_map. now exists k.
Qed.
Lemma nodup_flat_map {A B} (f : A -> list B) L : NoDup L -> (forall a, In a L -> NoDup (f a)) ->
  (forall a b y, In a L -> In b L -> In y (f a) -> In y (f b) -> a = b) -> NoDup (flat_map f L).
Proof.
  induction 1 as [|a L Na N IH]; intros H1 H2; [constructor|]. cbn [flat_map].
  assert (X : forall (l1 l2 : list B), NoDup l1 -> NoDup l2 -> (forall y, In y l1 -> In y l2 -> False) -> NoDup (l1 ++ l2)).
  { clear. induction l1 as [|y l1 IH]; intros l2 N1 N2 D; [assumption|]. inversion N1; subst. cbn [app].
    constructor.
    - rewrite in_app_iff. intros [|]; [contradiction|]. apply (D y); [now left|assumption].
    - apply IH; [assumption|assumption|]. intros z Hz. apply D. now right. }
  apply X.
  - apply H1. now left.
  - apply IH; [intros; apply H1; now right|]. intros b c y Hb Hc. apply H2; now right.
  - intros y Hy Hy'. apply in_flat_map in Hy' as (b & Hb & Hy'). apply Na.
    rewrite (H2 a b y); [assumption|now left|now right|assumption|assumption].
Qed.

(* ---------------- order of writing ---------------- *)

Lemma order_infos t : map top (order t) = infos t.
Proof.
  induction t as [i lo hi|i lo hi kids IH] using tree_ind2; [reflexivity|].
  cbn [order infos]. rewrite map_app, concat_map, map_rev, map_map. cbn [map top]. do 3 f_equal.
  induction IH as [|k ks H _ IHk]; [reflexivity|]. cbn [map]. now rewrite H, IHk.
Qed.
Lemma forest_order_infos ts : map top (forest_order ts) = forest_infos ts.
Proof.
  unfold forest_order, forest_infos. rewrite concat_map, map_rev, map_map. do 2 f_equal.
  apply map_ext. exact order_infos.
Qed.
Lemma in_forest_order ts u : In u (forest_order ts) <-> exists t, In t ts /\ In u (order t).
Proof.
  unfold forest_order. rewrite <- flat_map_concat_map || idtac.
  rewrite in_concat. split.
  - intros (l & Hl & Hu). apply in_rev in Hl. apply in_map_iff in Hl as (t & <- & Ht). now exists t.
  - intros (t & Ht & Hu). exists (order t). split; [|assumption]. apply -> in_rev. now apply in_map.
Qed.
Lemma order_self t : In t (order t).
Proof. destruct t; [now left|]. cbn [order]. apply in_app_iff. right. now left. Qed.
Lemma order_subtrees t u : In u (order t) -> In u (subtrees t).
Proof.
  revert u. induction t as [i lo hi|i lo hi kids IH] using tree_ind2; intros u H; [exact H|].
  cbn [order subtrees] in *. apply in_app_iff in H as [H|[<-|[]]]; [|now left]. right.
  apply (in_forest_order kids) in H as (k & Hk & Hu). apply in_flat_map. exists k. split; [assumption|].
  rewrite Forall_forall in IH. now apply IH.
Qed.

Lemma kids_first_app a b : kids_first a -> kids_first b -> kids_first (a ++ b).
Proof.
  intros Ha Hb pre u post E k Hk.
  assert (X : (exists q, a = pre ++ u :: q) \/ exists p, pre = a ++ p /\ b = p ++ u :: post).
  { clear - E. revert pre E. induction a as [|y a IH]; intros pre E.
    - right. exists pre. now split.
    - destruct pre as [|z pre]; cbn [app] in E; injection E as -> E.
      + left. now exists a.
      + destruct (IH pre E) as [[q ->]|[p [-> ->]]]; [left; now exists q|right; now exists p]. }
  destruct X as [[q X]|[p [-> X]]].
  - now apply (Ha pre u q X k).
  - apply in_app_iff. right. now apply (Hb p u post X k).
Qed.
Lemma kids_first_forest ts : Forall (fun t => kids_first (order t)) ts -> kids_first (forest_order ts).
Proof.
  unfold forest_order. induction 1 as [|t ts H _ IH].
  - intros pre u post E. destruct pre; discriminate.
  - cbn [map rev]. rewrite concat_app. cbn [concat]. rewrite app_nil_r. now apply kids_first_app.
Qed.
Lemma order_kids_first t : kids_first (order t).
Proof.
  induction t as [i lo hi|i lo hi kids IH] using tree_ind2.
  - intros pre u post E k Hk. destruct pre as [|z [|]]; try discriminate. injection E as <- _.
    cbn [targets] in Hk. apply in_map_iff in Hk as (j & Hj & _). discriminate.
  - cbn [order]. intros pre u post E k Hk. apply kids_first_forest in IH. unfold forest_order in IH.
    set (f := concat (rev (map order kids))) in *.
    assert (X : (exists q, f = pre ++ u :: q) \/ (pre = f /\ u = Inner i lo hi kids)).
    { clear - E. revert pre E. induction f as [|y a IH]; intros pre E.
      - destruct pre as [|z [|]]; try discriminate. injection E as <- _. right. split; reflexivity.
      - destruct pre as [|z pre]; cbn [app] in E; injection E as -> E.
        + left. now exists a.
        + destruct (IH pre E) as [[q ->]|[-> ->]]; [left; now exists q|right; split; reflexivity]. }
    destruct X as [[q X]|[-> ->]]; [now apply (IH pre u q X k)|].
    cbn [targets] in Hk. apply in_app_iff in Hk as [Hk|Hk]; apply in_map_iff in Hk as (j & Hj & Hk); [discriminate|].
    injection Hj as ->. apply (in_forest_order kids). exists k. split; [assumption|apply order_self].
Qed.

(* ---------------- the result of a build ---------------- *)

Section Build.
Context (P : prims).
Variable rnd : nat -> bytes.
Variable now : fl.
Variable v : tenv P.
Let o := te_opt v.
Let x := te_ctx v.
Let d := te_d v.
Let m := te_m v.
Let h := te_h v.
Let n := zlen (te_meta v).

Lemma ctx_wf_ok : ctx_wf x -> ctx_ok P v.
Proof.
  unfold ctx_wf, ctx_ok. fold x. intros H E. rewrite E in H. destruct H as [-> ->]. now split.
Qed.
Lemma full_1' : full m 1 = 1.
Proof. cbn [full]. lia. Qed.
Lemma init_ok out k : usable v ->
  exists s0, tb_init P v out k = Ok s0 /\ ids_rep h (b_ids s0) (first_ids P v) /\ b_head s0 = 0 /\
    b_tail s0 = n /\ b_out s0 = out /\ b_nonce s0 = k /\ b_mcnt s0 = 0 /\ b_leafs s0 = 0 /\ b_ints s0 = 0.
Proof.
  intros (Hd & Hm & Hh & Hn & Hf & _). unfold tb_init. rewrite id_factory_exact by assumption. cbn [bind].
  eexists. split; [reflexivity|]. cbn [b_ids b_head b_tail b_out b_nonce b_mcnt b_leafs b_ints].
  split; [|repeat split]. unfold ids_rep, first_ids. fold h m. apply map_ext. intros i.
  now replace (h - (h - i) + 1) with (i + 1) by lia.
Qed.

(* everything known about a finished build *)
Record result (out : list packet) (k : nat) (np : node * packet) (s : bst) (l : nat) (t : tree) : Prop :=
  { rs_shows : shows P rnd v out s np t;
    rs_wf : wf P rnd now v l t;
    rs_packed : packed P v l t;
    rs_chunks : chunks t = zrange 0 n;
    rs_height : height_is n d m l;
    rs_le : Z.of_nat l <= h;
    rs_mcnt : b_mcnt s = zlen (infos t);
    rs_leafs : b_leafs s = leaves t;
    rs_ints : b_ints s = inners t;
    rs_ids : forall i, exists a, ids_at i t = zrange a (full m (Z.to_nat (h - i + 1)));
    rs_nonces : map mi_nonce (infos t) = map (fun j => k + j * nstep P v)%nat (seq 0 (length (infos t)));
    rs_nonce : (b_nonce s = k + length (infos t) * nstep P v)%nat }.

Lemma build_result out k s0 : usable v -> tb_init P v out k = Ok s0 ->
  run (tb_build P rnd now v) s0
    (fun np s => exists l t, result out k np s l t)
    (fun e s => enc_fail P rnd now v e /\
       exists ts, Forall (fun t => exists l, wf P rnd now v l t) ts /\
         b_out s = out ++ map mi_pkt (forest_infos ts) /\ drawn P v k ts (b_nonce s)).
Proof.
  intros U I. destruct (init_ok out k U) as (s1 & I1 & R & Hh0 & Ht & Ho & Hk & Hm0 & Hl0 & Hi0).
  rewrite I in I1. apply Ok_inj in I1. subst s1. destruct U as (Hd & Hm & Hh & Hn & Hf & Hx).
  eapply run_weaken; [apply tb_build_spec; try assumption; try lia| |].
  - now apply ctx_wf_ok.
  - destruct Hn. assumption.
  - intros np s (l & t & g & [W Pk Np E Eh Et Ec El] & C1 & L & C2). exists l, t.
    destruct E as [E1 E2 E3 E4 E5 E6 E7 E8 E9]. rewrite forest_infos_one in *. split; try assumption.
    + split; [assumption|]. split; [now rewrite E7, Ho|]. now apply (wf_all_faithful P rnd now v l).
    + rewrite Ec, Et. unfold n, cap in *. f_equal. lia.
    + now split.
    + rewrite E4, Hm0. lia.
    + rewrite E5, Hl0. cbn [map]. rewrite zsum_cons. cbn. lia.
    + rewrite E6, Hi0. cbn [map]. rewrite zsum_cons. cbn. lia.
    + intros i. exists (g i + 1). specialize (E3 i). cbn [flat_map] in E3. rewrite app_nil_r in E3. rewrite E3.
      f_equal. unfold first_ids. fold h m. lia.
    + now rewrite E8, Hk.
    + now rewrite E9, Hk.
  - intros e s [F [ts [W [O D]]]]. split; [assumption|]. exists ts. rewrite <- Hk, O, Ho. now split.
Qed.
Lemma build_ok out k s0 np s : usable v -> tb_init P v out k = Ok s0 ->
  tb_build P rnd now v s0 = (Ok np, s) -> exists l t, result out k np s l t.
Proof.
  intros U I B. pose proof (build_result out k s0 U I) as H. unfold run in H. now rewrite B in H.
Qed.
Lemma build_err out k s0 e s : usable v -> tb_init P v out k = Ok s0 ->
  tb_build P rnd now v s0 = (Err e, s) -> enc_fail P rnd now v e /\
       exists ts, Forall (fun t => exists l, wf P rnd now v l t) ts /\
         b_out s = out ++ map mi_pkt (forest_infos ts) /\ drawn P v k ts (b_nonce s).
Proof.
  intros U I B. pose proof (build_result out k s0 U I) as H. unfold run in H. now rewrite B in H.
Qed.

Lemma result_level out k np s l t : result out k np s l t -> mi_level (top t) = Z.of_nat l.
Proof. intros R. exact (wf_level P rnd now v l t (rs_wf _ _ _ _ _ _ R)). Qed.
Lemma level_range l t : wf P rnd now v l t -> forall i, In i (infos t) -> 0 <= mi_level i <= Z.of_nat l.
Proof.
  intros W i Hi. apply (Permutation_in _ (infos_subtrees t)) in Hi. apply in_map_iff in Hi as (u & <- & Hu).
  destruct (wf_sub P rnd now v t l W u Hu) as (l' & L & W'). rewrite (wf_level P rnd now v l' u W'). lia.
Qed.
Lemma ids_range out k np s l t : usable v -> result out k np s l t -> forall i y, In y (ids_at i t) ->
  0 <= i <= Z.of_nat l /\ full m (Z.to_nat (h - i)) <= y < full m (Z.to_nat (h - i + 1)).
Proof.
  intros (Hd & Hm & Hh & _) R i y Hy. assert (I : 0 <= i <= Z.of_nat l).
  { destruct (Z.le_gt_cases 0 i); [destruct (Z.le_gt_cases i (Z.of_nat l)); [lia|]|];
    rewrite (ids_at_high P rnd now v l t i (rs_wf _ _ _ _ _ _ R)) in Hy by lia; destruct Hy. }
  split; [assumption|]. destruct (rs_ids _ _ _ _ _ _ R i) as [a Ha].
  pose proof (ids_at_count P rnd now v l ltac:(fold m; lia) t i (rs_wf _ _ _ _ _ _ R) I) as C. fold m in C.
  rewrite Ha in Hy, C. apply zrange_in in Hy. rewrite zrange_len in C.
  pose proof (rs_le _ _ _ _ _ _ R). replace (Z.to_nat (h - i + 1)) with (S (Z.to_nat (h - i))) in * by lia.
  rewrite full_S_pow in *. replace (Z.of_nat (Z.to_nat (h - i))) with (h - i) in * by lia.
  pose proof (Z.pow_le_mono_r m (Z.of_nat l - i) (h - i) ltac:(fold m in Hm; lia) ltac:(lia)). lia.
Qed.
Lemma top_id out k np s l t : usable v -> result out k np s l t ->
  mi_id (top t) = full m (Z.to_nat (h - Z.of_nat l + 1)) - 1.
Proof.
  intros U R. destruct (rs_ids _ _ _ _ _ _ R (Z.of_nat l)) as [a Ha].
  rewrite (ids_at_top P rnd now v l t (rs_wf _ _ _ _ _ _ R)) in Ha.
  symmetry in Ha. pose proof (f_equal zlen Ha) as Hl. rewrite zrange_len in Hl. cbn [zlen length] in Hl.
  change (zlen [mi_id (top t)]) with 1 in Hl. rewrite zrange_cons in Ha by lia. injection Ha as Ha _. lia.
Qed.
End Build.

(* ---------------- C28, C30: exceptions ---------------- *)

Definition exns0 : list exn := [OverflowError].
Lemma nd_size_errs b : errs (nd_tlv (mkND (Some b) None None [] [])) exns0.
Proof.
  unfold nd_tlv. cbn [nd_size nd_digest nd_locators nd_ncdefs nd_vendors wire_opt mapM bind].
  unfold exns0. errs_tac fail.
Qed.
Lemma tree_node_errs P (v : tenv P) nd : tree_node P v nd -> errs (node_tlv nd) [OverflowError; TypeError].
Proof.
  intros [[b Hd] Hp]. unfold node_tlv, node_value. rewrite Hp, Hd. errs_tac fail.
  - unfold size_data, opt_if. destruct (op_nsize _); cbn [wire_opt]; [|apply errs_ok].
    apply errs_bind; [errs_up ltac:(apply nd_size_errs)|]. intros; apply errs_ok.
  - apply mapM_errs. intros g. errs_up ltac:(apply hg_tlv_errs).
Qed.
Lemma impl_name_errs i id : errs (impl_name i (Some id)) [OverflowError; AttributeError].
Proof.
  unfold impl_name. destruct (im_schema i) as [| |[n|] [t|] l f]; errs_tac fail.
  apply mapM_errs. intros c. unfold comp_tlv. errs_tac fail.
Qed.
Lemma co_man_errs nm w e : errs (co_tlv (mkCO nm (Some PT_MANIFEST) (Some w) e None)) [OverflowError].
Proof.
  unfold co_tlv. cbn [co_name co_expiry co_ptype co_payload co_fcid].
  apply errs_bind; [apply wire_opt_errs; intros; apply name_tlv_errs|]. intros ? _.
  apply errs_bind; [apply wire_opt_errs; intros; apply ts_tlv_errs|]. intros ? _.
  cbn [wire_opt]. unfold ptype_tlv, payload_tlv. errs_tac fail.
Qed.

(* e is raised although the tree is fine: something does not fit into its
   encoding, the segmented schema has no prefix, or the manifest is larger than
   the maximum packet size *)
Definition encoding_error {P} (v : tenv P) (e : exn) : Prop :=
  In e [OverflowError; StructError; TypeError] \/
  (e = AttributeError /\ exists id, impl_name (nx_man (te_ctx v)) (Some id) = Err e) \/
  (e = ValueError /\ exists nd w, man_wire (mkMan None (MNode nd) None) = Ok w /\ op_max (te_opt v) < zlen w).

Lemma enc_fail_error P rnd now (v : tenv P) e : op_enc (te_opt v) = ENone ->
  enc_fail P rnd now v e -> encoding_error v e.
Proof.
  intros En [(nd & T & H)|[(nd & g & T & _ & H)|[(id & _ & H)|(nd & id & nm & k & T & _ & _ & H)]]].
  - left. pose proof (tree_node_errs P v nd (planned_tree_node P rnd now v nd T) e H) as X. cbn in *. tauto.
  - left. pose proof (hg_tlv_errs g e H) as X. cbn in *. tauto.
  - pose proof (impl_name_errs _ _ e H) as [<-|[<-|[]]]; [left; cbn; tauto|]. right; left. split; [reflexivity|now exists id].
  - unfold fac_node_packet, fac_packet, fac_build, fac_from_node in H. rewrite En in H.
    unfold sbind, lift, sret in H.
    assert (Ew : errs (man_wire (mkMan None (MNode nd) None)) [OverflowError; TypeError]).
    { unfold man_wire. cbn [m_ctx m_node m_tag wire_opt bind mnode_tlv]. errs_tac ltac:(now apply (tree_node_errs P v), (planned_tree_node P rnd now v)). }
    destruct (man_wire (mkMan None (MNode nd) None)) as [w|e'] eqn:E.
    2:{ cbn in H. injection H as <-. pose proof (Ew e' eq_refl) as X. left. cbn in *. tauto. }
    rewrite E in H. destruct (zlen w <=? op_max (te_opt v)) eqn:Ez; cbn [guard] in H.
    2:{ cbn in H. injection H as <-. right; right. split; [reflexivity|]. exists nd, w. split; [assumption|lia]. }
    destruct (man_content _ nm _) as [c|e'] eqn:Ec.
    2:{ cbn in H. injection H as <-. left. unfold man_content in Ec. rewrite E in Ec. cbn [bind] in Ec.
        unfold payload_tlv in Ec.
        destruct (octet_tlv _ w) as [pt|e2] eqn:Et; cbn [bind] in Ec.
        - destruct (co_tlv _) as [ct|e2] eqn:Eo; cbn [bind] in Ec; [discriminate|]. injection Ec as <-.
          pose proof (co_man_errs _ _ _ _ Eo) as X. cbn in *. tauto.
        - injection Ec as <-. pose proof (octet_tlv_errs _ _ _ Et) as X. cbn in *. tauto. }
    unfold man_content in Ec. rewrite E in Ec. cbn [bind] in Ec. mon. subst c.
    destruct (create_content_object _) as [p|e'] eqn:Ep.
    2:{ cbn in H. injection H as <-. left. unfold create_content_object in Ep.
        rewrite E1 in Ep. cbn [bind] in Ep.
        destruct (packet_wire _) as [b|e2] eqn:Eb; cbn [bind] in Ep; [discriminate|]. injection Ep as <-.
        assert (X : errs (packet_wire (mkPkt (hdr_content (8 + tlv_len a0)) (BCO (mkCO nm (Some PT_MANIFEST) (Some w) (op_mexp (te_opt v)) None)) None None))
                      [TypeError; StructError; OverflowError]).
        { unfold packet_wire, hdr_serialize, body_wire. cbn [p_hdr p_body p_alg p_vpl wire_opt].
          errs_tac ltac:(apply co_man_errs). }
        specialize (X _ Eb). cbn in *. tauto. }
    destruct (packet_hash _ p) as [hv|e'] eqn:Eh; cbn in H; [discriminate|]. injection H as <-. left.
    unfold create_content_object in Ep. rewrite E1 in Ep. cbn [bind] in Ep. mon. subst p.
    unfold packet_hash, packet_hash_input, body_wire in Eh. cbn [p_body p_alg p_vpl wire_opt] in Eh.
    rewrite E1 in Eh. cbn [bind] in Eh.
    destruct (hashv_tlv _) as [ht|e2] eqn:Et; cbn [bind] in Eh; [discriminate|]. injection Eh as <-.
    pose proof (hashv_tlv_errs _ _ Et) as X. cbn in *. tauto.
Qed.

(* C28.  With enough height every build ends, and an exception it raises is not
   about the tree: the height assertion, the id factory, the segment bounds and
   the count assertions never fire. *)
Theorem C28_build_raises_only_encoding_errors : forall P rnd now (v : tenv P) out k, usable v ->
  exists s0, tb_init P v out k = Ok s0 /\
  forall e s, op_enc (te_opt v) = ENone -> tb_build P rnd now v s0 = (Err e, s) -> encoding_error v e.
Proof.
  intros P rnd now v out k U. destruct (init_ok P rnd v out k U) as (s0 & I & _). exists s0. split; [assumption|].
  intros e s En B. apply (enc_fail_error P rnd now); [assumption|]. eapply build_err; eassumption.
Qed.
(* the same with an encryptor, whose own exceptions come on top *)
Theorem C28_build_raises_only_factory_errors : forall P rnd now (v : tenv P) out k, usable v ->
  exists s0, tb_init P v out k = Ok s0 /\
  forall e s, tb_build P rnd now v s0 = (Err e, s) ->
    encoding_error v e \/
    exists nd nm j, planned P rnd now v nd /\ fst (fac_node_packet P rnd now (te_opt v) nd nm j) = Err e.
Proof.
  intros P rnd now v out k U. destruct (init_ok P rnd v out k U) as (s0 & I & _). exists s0. split; [assumption|].
  intros e s B. destruct (build_err P rnd now v out k s0 e s U I B) as [F _].
  destruct F as [(nd & T & H)|[(nd & g & T & _ & H)|[(id & _ & H)|F]]]; [left..|right].
  - left. pose proof (tree_node_errs P v nd (planned_tree_node P rnd now v nd T) e H) as X. cbn in *. tauto.
  - left. pose proof (hg_tlv_errs g e H) as X. cbn in *. tauto.
  - pose proof (impl_name_errs _ _ e H) as [<-|[<-|[]]]; [left; cbn; tauto|]. right; left. split; [reflexivity|now exists id].
  - destruct F as (nd & id & nm & j & T & _ & _ & H). now exists nd, nm, j.
Qed.

(* the parameters that the optimizer returns are usable *)
Theorem C28_optimizer_usable : forall P clog (o : opts P) x meta p, log_ok clog ->
  1 <= zlen meta <= 2 ^ 32 -> 2 <= p <= 2 ^ 20 -> ctx_wf x ->
  exists r, minimize_k_min_waste clog (zlen meta) p = Ok r /\ usable (env_of P o x meta r) /\
    or_d r + or_m r = p.
Proof.
  intros P clog o x meta p Lok Hn Hp Hx.
  destruct (C28_optimizer_height clog (zlen meta) p Lok Hn Hp) as (r & L & E & Hd & Hm & S & HL & HH & _ & F).
  exists r. split; [assumption|]. split; [|assumption]. unfold usable, env_of. cbn [te_d te_m te_h te_meta te_ctx].
  repeat (split; [lia|]). split; [|split; assumption]. split; [lia|].
  destruct HL as [HL _]. pose proof (capacity_mono (or_d r) (or_m r) L (Z.to_nat (or_height r)) Hd Hm ltac:(lia)). lia.
Qed.

(* NameConstructorContext.create gives a context as assumed *)
Lemma schema_create_ok P (o : opts P) nc l n b i : schema_create P o nc l n b = Ok i ->
  im_nc i = nc /\ uses_name_id i = match op_type o with Segmented => true | _ => false end.
Proof.
  unfold schema_create, impl_make. destruct (op_type o); intros H; mon; subst i; split; reflexivity.
Qed.
Theorem nctx_create_wf : forall P (o : opts P) nc x, nctx_create P o nc = Ok x -> ctx_wf x.
Proof.
  intros P o nc x H.
  assert (T : forall ml dl mn dn, nctx_two P o nc ml dl mn dn = Ok x -> ctx_wf x).
  { unfold nctx_two. intros ml dl mn dn H1. mon. subst x. unfold ctx_wf. cbn [nx_two nx_man nx_data].
    apply schema_create_ok in E, E0. destruct E as [-> ->], E0 as [-> ->]. split; [lia|reflexivity]. }
  assert (O : forall l nm, op_type o <> Segmented -> nctx_one P o nc l nm = Ok x -> ctx_wf x).
  { unfold nctx_one. intros l nm Hs H1. mon. subst x. unfold ctx_wf. cbn [nx_two nx_man nx_data].
    apply schema_create_ok in E. destruct E as [_ ->]. split; [reflexivity|]. now destruct (op_type o). }
  unfold nctx_create in H. destruct (op_type o) eqn:Ty.
  - unfold create_hashed in H. mon. destruct (links_eq _ _) in H; [eapply O|eapply T]; try eassumption; congruence.
  - unfold prefixes in H. unfold create_named in H. mon. destruct a; [eapply O|eapply T]; try eassumption; congruence.
  - unfold create_segmented, prefixes, create_named in H. apply bind_ok in H as (? & _ & H).
    apply bind_ok in H as (e & E & H). rewrite E in H. destruct e; [discriminate H|]. cbn [negb guard bind] in H.
    eapply T; eassumption.
Qed.

(* ---------------- C29 ---------------- *)

Theorem C29_covers_chunks : forall P rnd now (v : tenv P) out k s0 np s, usable v ->
  tb_init P v out k = Ok s0 -> tb_build P rnd now v s0 = (Ok np, s) ->
  exists t, shows P rnd v out s np t /\ chunks t = zrange 0 (zlen (te_meta v)).
Proof.
  intros P rnd now v out k s0 np s U I B. destruct (build_ok P rnd now v out k s0 np s U I B) as (l & t & R).
  exists t. split; [apply R|apply R].
Qed.

(* ---------------- C30 ---------------- *)

Definition fan_out_ok (d m : Z) (u : tree) : Prop :=
  match u with
  | Leaf _ lo hi => 1 <= hi - lo <= d + m
  | Inner _ lo hi kids => 1 <= hi - lo <= d /\ 1 <= zlen kids <= m
  end.
Theorem C30_fan_out : forall P rnd now (v : tenv P) out k s0 np s, usable v ->
  tb_init P v out k = Ok s0 -> tb_build P rnd now v s0 = (Ok np, s) ->
  exists t, shows P rnd v out s np t /\
    Forall (fun u => fan_out_ok (te_d v) (te_m v) u /\
                     1 <= zlen (node_ptrs (mi_node (top u))) <= te_d v + te_m v) (subtrees t).
Proof.
  intros P rnd now v out k s0 np s U I B. destruct (build_ok P rnd now v out k s0 np s U I B) as (l & t & R).
  exists t. split; [apply R|]. apply Forall_forall. intros u Hu.
  destruct (wf_sub P rnd now v t l (rs_wf _ _ _ _ _ _ _ _ _ _ R) u Hu) as (l' & _ & W).
  rewrite (node_ptrs_targets P rnd now v l' u (proj2 (proj2 (proj2 (proj2 (proj2 U))))) W), zlen_map.
  destruct u as [i lo hi|i lo hi kids]; cbn [fan_out_ok targets].
  - apply wf_leaf in W as (_ & _ & L & _ & Lp & _). unfold te_p in Lp. rewrite zlen_map, zrange_len. lia.
  - apply wf_inner in W as (l2 & _ & _ & _ & L & _ & Ld & K0 & Km & _).
    rewrite zlen_app, !zlen_map, zrange_len. destruct kids as [|kd ks]; [congruence|].
    rewrite zlen_cons in *. pose proof (zlen_nonneg ks). lia.
Qed.

(* ---------------- C31 ---------------- *)

(* the number of manifests below the top on the longest way down *)
Fixpoint depth (t : tree) : nat :=
  match t with
  | Leaf _ _ _ => O
  | Inner _ _ _ kids => S (list_max (map depth kids))
  end.
(* a subtree is full if no tree of its depth holds more chunks *)
Definition is_full (d m : Z) (u : tree) : Prop := zlen (chunks u) = capacity d m (depth u).
Definition packed_node (d m : Z) (u : tree) : Prop :=
  match u with
  | Leaf _ _ _ => True
  | Inner _ lo hi kids =>
      (* no direct pointer is free while a chunk could be moved up *)
      (hi - lo = d \/ exists k, kids = [k] /\ is_full d m k) /\
      (* all children except the leftmost are full and reach the bottom *)
      Forall (fun k => is_full d m k /\ depth u = S (depth k)) (tl kids)
  end.
Lemma depth_le P rnd now (v : tenv P) t : forall l, wf P rnd now v l t -> (depth t <= l)%nat.
Proof.
  induction t as [i lo hi|i lo hi kids IH] using tree_ind2; intros l W; cbn [depth]; [lia|].
  apply wf_inner in W as (l' & -> & _ & _ & _ & _ & _ & _ & _ & _ & _ & W).
  enough (list_max (map depth kids) <= l')%nat by lia. apply list_max_le. rewrite Forall_map.
  rewrite Forall_forall in *. intros k Hk. apply IH; auto.
Qed.
Lemma capacity_lt d m a b : 1 <= d -> 1 <= m -> (a < b)%nat -> capacity d m a < capacity d m b.
Proof.
  intros Hd Hm H. pose proof (capacity_step d m a Hd Hm). pose proof (capacity_mono d m (S a) b Hd Hm ltac:(lia)). lia.
Qed.
(* a subtree with more chunks than fit one level lower reaches the bottom *)
Lemma depth_level P rnd now (v : tenv P) : 1 <= te_d v -> 1 <= te_m v -> forall t l, wf P rnd now v l t -> packed P v l t ->
  (forall k, (k < l)%nat -> capacity (te_d v) (te_m v) k < zlen (chunks t)) -> depth t = l.
Proof.
  intros Hd Hm t. induction t as [i lo hi|i lo hi kids IH] using tree_ind2; intros l W Pk C.
  - destruct l as [|l]; [reflexivity|]. specialize (C O ltac:(lia)). apply wf_leaf in W as (_ & _ & L & _ & Lp & _).
    cbn [chunks] in C. rewrite zrange_len in C. unfold te_p in Lp. cbn [capacity] in C. lia.
  - pose proof (depth_le _ _ _ _ _ _ W) as Le.
    apply wf_inner in W as (l' & -> & _ & _ & L & _ & Ld & K0 & _ & _ & _ & W). destruct Pk as (P1 & P2 & P3).
    rewrite Forall_forall in IH, W, P2, P3.
    assert (D : forall k, In k kids -> (forall j, (j < l')%nat -> capacity (te_d v) (te_m v) j < zlen (chunks k)) -> depth (Inner i lo hi kids) = S l').
    { intros k Hk Ck. cbn [depth] in *. f_equal. pose proof (IH k Hk l' (W k Hk) (P3 k Hk) Ck) as E.
      enough (depth k <= list_max (map depth kids))%nat by lia.
      pose proof (proj1 (list_max_le (map depth kids) _) (Nat.le_refl _)) as F. rewrite Forall_map, Forall_forall in F. now apply F. }
    assert (Fu : forall k, zlen (chunks k) = capacity (te_d v) (te_m v) l' -> forall j, (j < l')%nat -> capacity (te_d v) (te_m v) j < zlen (chunks k)).
    { intros k -> j Hj. now apply capacity_lt. }
    destruct P1 as [P1|(k & -> & P1)]; [|apply (D k); [now left|now apply Fu]].
    destruct kids as [|k [|k2 ks]]; [congruence| |apply (D k2); [right; now left|apply Fu, P2; now left]].
    apply (D k); [now left|]. intros j Hj. specialize (C (S j) ltac:(lia)).
    cbn [chunks flat_map] in C. rewrite app_nil_r, zlen_app, zrange_len in C. cbn [capacity] in C.
    pose proof (capacity_pos (te_d v) (te_m v) j ltac:(lia) ltac:(lia)). nia.
Qed.
Lemma full_depth P rnd now (v : tenv P) t l : 1 <= te_d v -> 1 <= te_m v -> wf P rnd now v l t -> packed P v l t ->
  zlen (chunks t) = capacity (te_d v) (te_m v) l -> depth t = l.
Proof. intros Hd Hm W Pk E. eapply depth_level; eauto. intros k Hk. rewrite E. now apply capacity_lt. Qed.
Lemma packed_sub P rnd now (v : tenv P) t : 1 <= te_d v -> 1 <= te_m v -> forall l, wf P rnd now v l t -> packed P v l t ->
  Forall (packed_node (te_d v) (te_m v)) (subtrees t).
Proof.
  intros Hd Hm. induction t as [i lo hi|i lo hi kids IH] using tree_ind2; intros l W Pk.
  - constructor; [exact I|constructor].
  - pose proof (depth_le _ _ _ _ _ _ W) as Le.
    apply wf_inner in W as (l' & -> & _ & _ & _ & _ & _ & _ & _ & _ & _ & W).
    destruct Pk as (P1 & P2 & P3). rewrite Forall_forall in IH, W, P2, P3.
    assert (Fu : forall k, In k kids -> zlen (chunks k) = capacity (te_d v) (te_m v) l' -> depth k = l' /\ is_full (te_d v) (te_m v) k).
    { intros k Hk Hf. assert (E : depth k = l') by (eapply full_depth; eauto). split; [exact E|]. unfold is_full. now rewrite E. }
    constructor.
    + cbn [packed_node]. split.
      * destruct P1 as [P1|(k & -> & P1)]; [now left|]. right. exists k. split; [reflexivity|]. apply Fu; [now left|assumption].
      * apply Forall_forall. intros k Hk. assert (In k kids) as Hi by (destruct kids; [destruct Hk|now right]).
        destruct (Fu k Hi (P2 k Hk)) as [E F]. split; [exact F|]. cbn [depth] in *. f_equal.
        pose proof (proj1 (list_max_le (map depth kids) _) (Nat.le_refl _)) as X. rewrite Forall_map, Forall_forall in X.
        specialize (X k Hi). lia.
    + apply Forall_forall. intros u Hu. apply in_flat_map in Hu as (k & Hk & Hu).
      specialize (IH k Hk l' (W k Hk) (P3 k Hk)). rewrite Forall_forall in IH. now apply IH.
Qed.
Lemma result_depth P rnd now (v : tenv P) out k np s l t : usable v -> result P rnd now v out k np s l t -> depth t = l.
Proof.
  intros U R. eapply depth_level; [apply U|apply U|apply R|apply R|].
  intros j Hj. destruct (rs_height _ _ _ _ _ _ _ _ _ _ R) as [_ H]. specialize (H j Hj).
  rewrite (rs_chunks _ _ _ _ _ _ _ _ _ _ R), zrange_len. destruct U as (_ & _ & _ & U & _). lia.
Qed.
Lemma leaves_inners t : leaves t + inners t = zlen (infos t).
Proof.
  induction t as [i lo hi|i lo hi kids IH] using tree_ind2; [reflexivity|].
  rewrite infos_inner, zlen_app. cbn [leaves inners].
  assert (X : zsum (map leaves kids) + zsum (map inners kids) = zlen (forest_infos kids)).
  { unfold zlen. rewrite (Permutation_length (forest_infos_perm kids)). fold (zlen (flat_map infos kids)).
    rewrite zlen_flat_map. induction IH as [|k ks H _ IHk]; [reflexivity|]. cbn [map]. rewrite !zsum_cons. lia. }
  change (zlen [i]) with 1. lia.
Qed.

Theorem C31_packed : forall P rnd now (v : tenv P) out k s0 np s, usable v ->
  tb_init P v out k = Ok s0 -> tb_build P rnd now v s0 = (Ok np, s) ->
  exists t, shows P rnd v out s np t /\
    (* the height is the least that has room for all chunks *)
    height_is (zlen (te_meta v)) (te_d v) (te_m v) (depth t) /\
    Forall (packed_node (te_d v) (te_m v)) (subtrees t) /\
    (* the counters *)
    b_leafs s = leaves t /\ b_ints s = inners t /\ b_mcnt s = zlen (infos t) /\
    leaves t + inners t = zlen (infos t).
Proof.
  intros P rnd now v out k s0 np s U I B. destruct (build_ok P rnd now v out k s0 np s U I B) as (l & t & R).
  exists t. split; [apply R|]. split.
  { rewrite (result_depth _ _ _ _ _ _ _ _ _ _ U R). apply R. }
  split; [eapply packed_sub; [apply U|apply U|apply R|apply R]|]. split; [apply R|]. split; [apply R|]. split; [apply R|]. apply leaves_inners.
Qed.

(* ---------------- C32 ---------------- *)

Theorem C32_unique_ids : forall P rnd now (v : tenv P) out k s0 np s, usable v ->
  tb_init P v out k = Ok s0 -> tb_build P rnd now v s0 = (Ok np, s) ->
  exists t, shows P rnd v out s np t /\ NoDup (map mi_id (infos t)) /\
    Forall (fun i => 0 <= mi_id i < full (te_m v) (Z.to_nat (te_h v + 1))) (infos t).
Proof.
  intros P rnd now v out k s0 np s U I B. destruct (build_ok P rnd now v out k s0 np s U I B) as (l & t & R).
  exists t. split; [apply R|].
  pose proof (level_range P rnd now v l t (rs_wf _ _ _ _ _ _ _ _ _ _ R)) as Lv.
  pose proof (ids_at_perm (zrange 0 (Z.of_nat l + 1)) (zrange_nodup _ _) t) as Pm.
  specialize (Pm ltac:(intros i Hi; apply zrange_in; specialize (Lv i Hi); lia)).
  pose proof U as (Hd & Hm & Hh & _). pose proof (ids_range P rnd now v out k np s l t U R) as Rg.
  pose proof (rs_le _ _ _ _ _ _ _ _ _ _ R) as Le. split.
  - eapply Permutation_NoDup; [exact Pm|]. apply nodup_flat_map; [apply zrange_nodup| |].
    + intros a _. destruct (rs_ids _ _ _ _ _ _ _ _ _ _ R a) as [b ->]. apply zrange_nodup.
    + intros a b y _ _ Ha Hb. apply Rg in Ha, Hb. destruct Ha as [A1 A2], Hb as [B1 B2].
      destruct (Z.lt_trichotomy a b) as [Lt|[|Gt]]; [exfalso|assumption|exfalso].
      * pose proof (full_mono (te_m v) (Z.to_nat (te_h v - b + 1)) (Z.to_nat (te_h v - a)) Hm ltac:(lia)). lia.
      * pose proof (full_mono (te_m v) (Z.to_nat (te_h v - a + 1)) (Z.to_nat (te_h v - b)) Hm ltac:(lia)). lia.
  - apply Forall_forall. intros i Hi. assert (Hin : In (mi_id i) (map mi_id (infos t))) by now apply in_map.
    apply (Permutation_in _ (Permutation_sym Pm)) in Hin. apply in_flat_map in Hin as (j & Hj & Hin).
    apply Rg in Hin as [J Hin]. pose proof (full_nonneg (te_m v) (Z.to_nat (te_h v - j)) ltac:(lia)).
    pose proof (full_mono (te_m v) (Z.to_nat (te_h v - j + 1)) (Z.to_nat (te_h v + 1)) Hm ltac:(lia)). lia.
Qed.

(* ---------------- C33 ---------------- *)

(* The names a node implies: its groups split the targets of the manifest, and
   in each group start id + offset is the number of the target; iterating the
   node yields each target's hash, name constructor and number.  The name of a
   manifest is given by the same constructor and number ([faithful]), the name
   of chunk i by the data constructor and i (C26). *)
Definition starts_right {P} (v : tenv P) (u : tree) : Prop :=
  exists parts, concat parts = targets u /\
    Forall2 (fun g ts => exists gd start, hg_data g = Some gd /\ gd_start gd = Some start /\
               hg_ptrs g = Some (map (tg_hash P v) ts) /\
               forall j t, nth_error ts j = Some t ->
                 tg_num P v t = start + Z.of_nat j /\ gd_nc_id gd = Some (im_nc (tg_impl P v t)))
            (n_groups (mi_node (top u))) parts.
Theorem C33_start_ids : forall P rnd now (v : tenv P) out k s0 np s, usable v ->
  uses_name_id (nx_man (te_ctx v)) = true -> numbered P v ->
  tb_init P v out k = Ok s0 -> tb_build P rnd now v s0 = (Ok np, s) ->
  exists t, shows P rnd v out s np t /\
    Forall (fun u => starts_right v u /\
      node_iter (n_groups (mi_node (top u)))
        = (map (fun tg => mkHiv (im_nc (tg_impl P v tg)) (tg_hash P v tg) (Some (tg_num P v tg))) (targets u), None))
      (subtrees t).
Proof.
  intros P rnd now v out k s0 np s U Hu Hnum I B.
  destruct (build_ok P rnd now v out k s0 np s U I B) as (l & t & R).
  exists t. split; [apply R|]. apply Forall_forall. intros u Hin.
  destruct (wf_sub P rnd now v t l (rs_wf _ _ _ _ _ _ _ _ _ _ R) u Hin) as (l' & _ & W).
  pose proof (proj2 (proj2 (proj2 (proj2 (proj2 U))))) as Hx. split.
  - destruct (groups_targets P rnd now v l' u Hx W) as (parts & F & C & Ne). exists parts. split; [assumption|].
    clear C Ne. induction F as [|g ts gs ps H F IH]; [constructor|]. constructor; [|exact IH].
    destruct H as (gd & Hg & Hp & _ & _ & _ & Hi & Hs). rewrite Hu in Hs. destruct Hs as (st & Hst & Hs).
    exists gd, st. do 3 (split; [assumption|]). intros j tg E. split; [now apply Hs|]. apply Hi.
    eapply nth_error_In. exact E.
  - rewrite (node_items P rnd now v l' u Hx Hnum W). f_equal. unfold tg_hiv. rewrite Hu. reflexivity.
Qed.
(* without ids in names no start id is written *)
Theorem C33_no_start_ids : forall P rnd now (v : tenv P) out k s0 np s, usable v ->
  uses_name_id (nx_man (te_ctx v)) = false -> numbered P v ->
  tb_init P v out k = Ok s0 -> tb_build P rnd now v s0 = (Ok np, s) ->
  exists t, shows P rnd v out s np t /\
    Forall (fun u => node_iter (n_groups (mi_node (top u)))
        = (map (fun tg => mkHiv (im_nc (tg_impl P v tg)) (tg_hash P v tg) None) (targets u), None))
      (subtrees t).
Proof.
  intros P rnd now v out k s0 np s U Hu Hnum I B.
  destruct (build_ok P rnd now v out k s0 np s U I B) as (l & t & R).
  exists t. split; [apply R|]. apply Forall_forall. intros u Hin.
  destruct (wf_sub P rnd now v t l (rs_wf _ _ _ _ _ _ _ _ _ _ R) u Hin) as (l' & _ & W).
  pose proof (proj2 (proj2 (proj2 (proj2 (proj2 U))))) as Hx.
  rewrite (node_items P rnd now v l' u Hx Hnum W). f_equal. unfold tg_hiv. rewrite Hu. reflexivity.
Qed.

(* ---------------- C34 ---------------- *)

(* The root manifest of a segmented tree gives its pointer start id 0.  That is
   the id of the top manifest exactly if the tree is as high as computed. *)
Theorem C34_top_id : forall P rnd now (v : tenv P) out k s0 np s, usable v ->
  tb_init P v out k = Ok s0 -> tb_build P rnd now v s0 = (Ok np, s) ->
  exists t, shows P rnd v out s np t /\ (mi_id (top t) = 0 <-> Z.of_nat (depth t) = te_h v).
Proof.
  intros P rnd now v out k s0 np s U I B. destruct (build_ok P rnd now v out k s0 np s U I B) as (l & t & R).
  exists t. split; [apply R|]. rewrite (top_id P rnd now v out k np s l t U R), (result_depth _ _ _ _ _ _ _ _ _ _ U R).
  pose proof U as (Hd & Hm & Hh & _). pose proof (rs_le _ _ _ _ _ _ _ _ _ _ R) as Le. split; intros H.
  - destruct (Z.eq_dec (Z.of_nat l) (te_h v)) as [|Ne]; [assumption|].
    pose proof (full_mono (te_m v) 2 (Z.to_nat (te_h v - Z.of_nat l + 1)) Hm ltac:(lia)) as F. cbn [full] in F. lia.
  - rewrite H, Z.sub_diag. change (Z.to_nat (0 + 1)) with 1%nat. cbn [full]. lia.
Qed.
(* For at least two indirect pointers per manifest and exact
   logarithms the name implied by the root is that of the top manifest.  The
   full claim is false, see the two theorems below. *)
Theorem C34_root_leads_to_top : forall P clog rnd now (o : opts P) x meta p r out k s0 np s,
  log_exact clog -> 1 <= zlen meta <= 2 ^ 32 -> 2 <= p <= 2 ^ 20 -> ctx_wf x ->
  minimize_k_min_waste clog (zlen meta) p = Ok r -> 2 <= or_m r ->
  tb_init P (env_of P o x meta r) out k = Ok s0 ->
  tb_build P rnd now (env_of P o x meta r) s0 = (Ok np, s) ->
  exists t, shows P rnd (env_of P o x meta r) out s np t /\ mi_id (top t) = 0 /\
    impl_name (nx_man x) (Some 0) = Ok (mi_name (top t)).
Proof.
  intros P clog rnd now o x meta p r out k s0 np s Lex Hn Hp Hx E M2 I B.
  destruct (C28_optimizer_height clog (zlen meta) p (log_exact_ok _ Lex) Hn Hp) as (r' & L & E' & Hd & Hm & S & HL & HH & Hex & F).
  rewrite E in E'. apply Ok_inj in E'. subst r'.
  destruct (C28_optimizer_usable P clog o x meta p (log_exact_ok _ Lex) Hn Hp Hx) as (r' & E' & U & _).
  rewrite E in E'. apply Ok_inj in E'. subst r'.
  destruct (build_ok P rnd now _ out k s0 np s U I B) as (l & t & R).
  exists t. split; [apply R|].
  assert (Z0 : mi_id (top t) = 0).
  { rewrite (top_id P rnd now _ out k np s l t U R).
    assert (l = L).
    { destruct (rs_height _ _ _ _ _ _ _ _ _ _ R) as [A1 A2], HL as [B1 B2].
      unfold env_of in A1, A2. cbn [te_d te_m te_meta] in A1, A2.
      destruct (Nat.lt_trichotomy l L) as [Lt|[|Gt]]; [specialize (B2 l Lt); lia|assumption|specialize (A2 L Gt); lia]. }
    subst l. destruct (Hex M2) as [_ Hex']. unfold env_of. cbn [te_h te_m].
    rewrite (Hex' Lex), Z.sub_diag. change (Z.to_nat (0 + 1)) with 1%nat. cbn [full]. lia. }
  split; [assumption|]. rewrite <- Z0.
  destruct (rs_shows _ _ _ _ _ _ _ _ _ _ R) as (_ & _ & Fa). rewrite Forall_forall in Fa.
  destruct (Fa t (subtrees_self t)) as (_ & X & _). exact X.
Qed.
(* Whenever the optimizer picks one indirect pointer per manifest, the top
   manifest of a file of two or more chunks does not have id 0. *)
Theorem C34_one_indirect_refuted : forall P clog rnd now (o : opts P) x meta p r out k s0 np s,
  log_ok clog -> 2 <= zlen meta <= 2 ^ 32 -> 2 <= p <= 2 ^ 20 -> ctx_wf x ->
  minimize_k_min_waste clog (zlen meta) p = Ok r -> or_m r = 1 ->
  tb_init P (env_of P o x meta r) out k = Ok s0 ->
  tb_build P rnd now (env_of P o x meta r) s0 = (Ok np, s) ->
  exists t, shows P rnd (env_of P o x meta r) out s np t /\ 1 <= mi_id (top t).
Proof.
  intros P clog rnd now o x meta p r out k s0 np s Lok Hn Hp Hx E M1 I B.
  destruct (minimize_k_spec clog (zlen meta) p ltac:(lia) ltac:(lia)) as (m & kk & Hm & Hk & E' & _ & _).
  rewrite E in E'. apply Ok_inj in E'. subst r. unfold res_of in M1. cbn [or_m] in M1.
  destruct (C28_optimizer_usable P clog o x meta p Lok ltac:(lia) Hp Hx) as (r' & E' & U & _).
  rewrite E in E'. apply Ok_inj in E'. rewrite <- E' in U. clear E'.
  destruct (build_ok P rnd now _ out k s0 np s U I B) as (l & t & R).
  exists t. split; [apply R|]. rewrite (top_id P rnd now _ out k np s l t U R).
  destruct (opt_height_ok (zlen meta) p m ltac:(lia) ltac:(lia) ltac:(lia) clog l Lok (rs_height _ _ _ _ _ _ _ _ _ _ R)) as (_ & _ & H3 & _).
  specialize (H3 M1 ltac:(lia)).
  assert (EH : te_h (env_of P o x meta (res_of clog (zlen meta) p m kk)) = opt_height (zlen meta) p m clog).
  { subst kk. reflexivity. }
  rewrite EH, H3. change (te_m (env_of P o x meta (res_of clog (zlen meta) p m kk))) with m. rewrite M1, full_1.
  pose proof (k_bounds (zlen meta) p m ltac:(lia) ltac:(lia)) as K.
  assert (X : 1 <= leaf_of (zlen meta) p (p - m) (cdiv (zlen meta - p) (m * (p - 1)))).
  { unfold leaf_of. rewrite M1 in *. set (q := cdiv _ _) in *.
    assert (q * (p - 1) < zlen meta) by nia. replace (zlen meta - q * (p - 1) <=? 0) with false by nia.
    pose proof (cdiv_spec (zlen meta - q * (p - 1)) p ltac:(lia)). nia. }
  rewrite M1 in X. lia.
Qed.

(* a two-chunk file: the root manifest points to .../manifest id 0, the top
   manifest is .../manifest id 1 *)
Definition ex_name (l : list Z) : name := map (fun z => mkComp T_NAMESEGMENT KBytes [z]) l.
Definition ex_opts (ty : stype) (mx : Z) : opts toy :=
  mkOpts toy (Some (ex_name [97])) ty None (Some (ex_name [97; 109])) (Some (ex_name [97; 100]))
    None None None None None ENone true true true None mx.
Definition pkt_name (p : packet) : option name :=
  match p_body p with BCO c => co_name c | BInterest n => n end.
Theorem C34_refuted : exists (o : opts toy) data root d0 d1 top x,
  manifest_tree toy exact_log (fun _ => []) (mkFl 0 0) o 1 data (mkMst [] 0) = (Ok root, mkMst [d0; d1; top; root] 0) /\
  nctx_create toy o 1 = Ok x /\ uses_name_id (nx_man x) = true /\
  exists n, impl_name (nx_man x) (Some 0) = Ok (Some n) /\ pkt_name top <> Some n.
Proof.
  exists (ex_opts Segmented 300), (repeat 7 400). do 5 eexists.
  split; [vm_compute; reflexivity|]. split; [vm_compute; reflexivity|]. split; [vm_compute; reflexivity|].
  eexists. split; [vm_compute; reflexivity|]. vm_compute. discriminate.
Qed.

(* ---------------- C37 ---------------- *)

(* What has been put to the output by the builder when it returns or raises,
   at whatever point, is a list of manifests each of which comes after all
   manifests it points to.  (The chunks are put before the builder starts, see
   C35.) *)
Theorem C37_build_order : forall P rnd now (v : tenv P) out k s0 r s, usable v ->
  tb_init P v out k = Ok s0 -> tb_build P rnd now v s0 = (r, s) ->
  exists us, b_out s = out ++ map (fun u => mi_pkt (top u)) us /\ Forall (faithful P rnd v) us /\ kids_first us.
Proof.
  intros P rnd now v out k s0 r s U I B. pose proof (proj2 (proj2 (proj2 (proj2 (proj2 U))))) as Hx.
  assert (X : forall ts, Forall (fun t => exists l, wf P rnd now v l t) ts ->
    Forall (faithful P rnd v) (forest_order ts) /\ kids_first (forest_order ts)).
  { intros ts W. split.
    - apply Forall_forall. intros u Hu. apply in_forest_order in Hu as (t & Ht & Hu). rewrite Forall_forall in W.
      destruct (W t Ht) as [l Wt]. pose proof (wf_all_faithful P rnd now v l t Hx Wt) as F. rewrite Forall_forall in F.
      apply F. now apply order_subtrees.
    - apply kids_first_forest. apply Forall_forall. intros t _. apply order_kids_first. }
  destruct r as [np|e].
  - destruct (build_ok P rnd now v out k s0 np s U I B) as (l & t & R). exists (forest_order [t]).
    destruct (rs_shows _ _ _ _ _ _ _ _ _ _ R) as (_ & -> & _). split.
    + rewrite <- (map_map top mi_pkt), forest_order_infos, forest_infos_one. reflexivity.
    + apply X. constructor; [|constructor]. exists l. apply R.
  - destruct (build_err P rnd now v out k s0 e s U I B) as (_ & ts & W & O). exists (forest_order ts). split.
    + now rewrite <- (map_map top mi_pkt), forest_order_infos.
    + now apply X.
Qed.

Lemma bytes_whole P (v : tenv P) t : chunks t = zrange 0 (zlen (te_meta v)) -> bytes_of P v t = zsum (map cm_bytes (te_meta v)).
Proof.
  intros E. unfold bytes_of. rewrite E. unfold chunk_bytes. f_equal.
    rewrite <- (map_map (chunk_meta P v) cm_bytes). f_equal. unfold chunk_meta, zrange, zlen. rewrite Z.sub_0_r, Nat2Z.id.
    generalize (te_meta v) as ms. clear. intros ms.
    assert (X : forall (k : nat) (pre : list cmeta), length pre = k ->
      map (fun i => nth (Z.to_nat i) (pre ++ ms) no_chunk) (zseq (Z.of_nat k) (length ms)) = ms).
    { induction ms as [|a ms IH]; intros k pre Hk; [reflexivity|]. cbn [length zseq map]. f_equal.
      - rewrite Nat2Z.id, app_nth2 by lia. now rewrite Hk, Nat.sub_diag.
      - replace (Z.of_nat k + 1) with (Z.of_nat (S k)) by lia.
        specialize (IH (S k) (pre ++ [a])). rewrite <- app_assoc in IH. cbn [app] in IH. apply IH.
        rewrite app_length. cbn [length]. lia. }
    apply (X 0%nat []). reflexivity.
Qed.
(* ---------------- C38, C39 ---------------- *)

Theorem C38_subtree_sizes : forall P rnd now (v : tenv P) out k s0 np s, usable v ->
  op_nsize (te_opt v) = true ->
  tb_init P v out k = Ok s0 -> tb_build P rnd now v s0 = (Ok np, s) ->
  exists t, shows P rnd v out s np t /\
    Forall (fun u => exists nd, n_data (mi_node (top u)) = Some nd /\ nd_size nd = Some (bytes_of P v u)) (subtrees t) /\
    bytes_of P v t = zsum (map cm_bytes (te_meta v)).
Proof.
  intros P rnd now v out k s0 np s U Ns I B. destruct (build_ok P rnd now v out k s0 np s U I B) as (l & t & R).
  exists t. split; [apply R|]. split.
  - apply Forall_forall. intros u Hu.
    destruct (wf_sub P rnd now v t l (rs_wf _ _ _ _ _ _ _ _ _ _ R) u Hu) as (l' & _ & W).
    rewrite (node_size_wf P rnd now v l' u W). unfold size_data, opt_if. rewrite Ns. eexists. split; reflexivity.
  - apply bytes_whole. apply R.
Qed.

(* every hash group of u carries sizes [leaf ts] and [sub ts] for its targets ts *)
Definition group_sizes {P} (v : tenv P) (leaf sub : list target -> option Z) (u : tree) : Prop :=
  exists parts, concat parts = targets u /\
    Forall2 (fun g ts => exists gd, hg_data g = Some gd /\ hg_ptrs g = Some (map (tg_hash P v) ts) /\
               gd_leaf_size gd = leaf ts /\ gd_subtree_size gd = sub ts)
      (n_groups (mi_node (top u))) parts.
Theorem C39_group_sizes : forall P rnd now (v : tenv P) out k s0 np s, usable v ->
  op_nsize (te_opt v) = true ->
  tb_init P v out k = Ok s0 -> tb_build P rnd now v s0 = (Ok np, s) ->
  exists t, shows P rnd v out s np t /\
    Forall (group_sizes v (fun ts => opt_if (op_gleaf (te_opt v)) (zsum (map (tg_direct P v) ts)))
                          (fun ts => opt_if (op_gsize (te_opt v)) (zsum (map (tg_bytes P v) ts)))) (subtrees t).
Proof.
  intros P rnd now v out k s0 np s U Ns I B. destruct (build_ok P rnd now v out k s0 np s U I B) as (l & t & R).
  exists t. split; [apply R|]. apply Forall_forall. intros u Hu.
  destruct (wf_sub P rnd now v t l (rs_wf _ _ _ _ _ _ _ _ _ _ R) u Hu) as (l' & _ & W).
  destruct (groups_targets P rnd now v l' u (proj2 (proj2 (proj2 (proj2 (proj2 U))))) W) as (parts & F & C & _).
  exists parts. split; [assumption|]. clear C. induction F as [|g ts gs ps H F IH]; [constructor|].
  constructor; [|exact IH]. destruct H as (gd & Hg & Hp & H1 & H2 & _). exists gd. rewrite Ns in H2. auto.
Qed.
(* without node sizes the group subtree size counts only the direct children *)
Theorem C39_without_node_sizes : forall P rnd now (v : tenv P) out k s0 np s, usable v ->
  op_nsize (te_opt v) = false ->
  tb_init P v out k = Ok s0 -> tb_build P rnd now v s0 = (Ok np, s) ->
  exists t, shows P rnd v out s np t /\
    Forall (group_sizes v (fun ts => opt_if (op_gleaf (te_opt v)) (zsum (map (tg_direct P v) ts)))
                          (fun ts => opt_if (op_gsize (te_opt v)) (zsum (map (tg_direct P v) ts)))) (subtrees t).
Proof.
  intros P rnd now v out k s0 np s U Ns I B. destruct (build_ok P rnd now v out k s0 np s U I B) as (l & t & R).
  exists t. split; [apply R|]. apply Forall_forall. intros u Hu.
  destruct (wf_sub P rnd now v t l (rs_wf _ _ _ _ _ _ _ _ _ _ R) u Hu) as (l' & _ & W).
  destruct (groups_targets P rnd now v l' u (proj2 (proj2 (proj2 (proj2 (proj2 U))))) W) as (parts & F & C & _).
  exists parts. split; [assumption|]. clear C. induction F as [|g ts gs ps H F IH]; [constructor|].
  constructor; [|exact IH]. destruct H as (gd & Hg & Hp & H1 & H2 & _). exists gd. rewrite Ns in H2. auto.
Qed.

(* ---------------- C57 ---------------- *)

(* With an encryptor every manifest is sealed with its own nonce: the numbers
   are consecutive, starting where the process was. *)
Theorem C57_nonces : forall P rnd now (v : tenv P) out k s0 np s, usable v ->
  op_enc (te_opt v) <> ENone ->
  tb_init P v out k = Ok s0 -> tb_build P rnd now v s0 = (Ok np, s) ->
  exists t, shows P rnd v out s np t /\ map mi_nonce (infos t) = seq k (length (infos t)) /\
    b_nonce s = (k + length (infos t))%nat.
Proof.
  intros P rnd now v out k s0 np s U En I B. destruct (build_ok P rnd now v out k s0 np s U I B) as (l & t & R).
  assert (N1 : nstep P v = 1%nat) by (unfold nstep; destruct (op_enc (te_opt v)); congruence).
  exists t. split; [apply R|]. rewrite (rs_nonces _ _ _ _ _ _ _ _ _ _ R), (rs_nonce _ _ _ _ _ _ _ _ _ _ R), N1. split.
  - rewrite (seq_from k). apply map_ext. intros j. lia.
  - lia.
Qed.

(* ---------------- a case ---------------- *)

(* thirteen chunks, two direct and two indirect pointers per manifest *)
Definition ex_meta : list cmeta :=
  map (fun i => mkCM i (100 + i) (mkHash T_SHA_256 (repeat i 32))) (zrange 0 13).
Definition ex_ctx (ty : stype) : nctx :=
  match nctx_create toy (ex_opts ty 300) 1 with Ok x => x | Err _ => mkNctx (mkImpl 0 (SHash None None)) (mkImpl 0 (SHash None None)) false end.
Definition ex_env (ty : stype) (e : encryptor) (sizes : bool) : tenv toy :=
  mkEnv toy ex_meta 2 2 2 (ex_ctx ty)
    (mkOpts toy (Some (ex_name [97])) ty None (Some (ex_name [97; 109])) (Some (ex_name [97; 100]))
       None None None None None e sizes true true None 300).
Definition ex_key16 : encryptor := EAead (mkAP (mkAK GCM (repeat 5 16)) 22 None None None).

Example ex_usable : forall ty e b, usable (ex_env ty e b).
Proof.
  intros ty e b. unfold usable. change (te_d (ex_env ty e b)) with 2. change (te_m (ex_env ty e b)) with 2.
  change (te_h (ex_env ty e b)) with 2. change (te_meta (ex_env ty e b)) with ex_meta.
  change (te_ctx (ex_env ty e b)) with (ex_ctx ty).
  do 3 (split; [lia|]). split; [vm_compute; split; discriminate|]. split; [vm_compute; reflexivity|].
  apply (nctx_create_wf toy (ex_opts ty 300) 1). destruct ty; vm_compute; reflexivity.
Qed.
Example ex_numbered : forall ty e b, numbered toy (ex_env ty e b).
Proof.
  intros ty e b. exists 0. intros i Hi. change (zlen (te_meta (ex_env ty e b))) with 13 in Hi. unfold chunk_meta.
  change (te_meta (ex_env ty e b)) with ex_meta.
  assert (X : In i (zrange 0 13)) by (apply zrange_in; lia). vm_compute in X.
  repeat (destruct X as [<-|X]; [reflexivity|]). destruct X.
Qed.
Example ex_build : forall ty e b, In e [ENone; ex_key16] ->
  exists s0 np s, tb_init toy (ex_env ty e b) [] 0 = Ok s0 /\
    tb_build toy (fun _ => repeat 1 12) (mkFl 0 0) (ex_env ty e b) s0 = (Ok np, s) /\
    length (b_out s) = 5%nat /\ b_leafs s = 3 /\ b_ints s = 2.
Proof.
  intros ty e b He.
  assert (X : match tb_init toy (ex_env ty e b) [] 0 with
              | Ok s0 => match tb_build toy (fun _ => repeat 1 12) (mkFl 0 0) (ex_env ty e b) s0 with
                         | (Ok _, s) => (length (b_out s), b_leafs s, b_ints s)
                         | _ => (0%nat, 0, 0)
                         end
              | _ => (0%nat, 0, 0)
              end = (5%nat, 3, 2)).
  { destruct He as [<-|[<-|[]]]; destruct ty, b; vm_compute; reflexivity. }
  destruct (tb_init _ _ _ _) as [s0|]; [|discriminate].
  destruct (tb_build toy _ _ _ s0) as [[np|] s] eqn:E; [|discriminate].
  exists s0, np, s. split; [reflexivity|]. split; [exact E|]. injection X as -> -> ->. auto.
Qed.
(* the hypotheses of the theorems about the optimizer: 13 chunks, 4 or 20
   pointers *)
Definition ex_opt (p : Z) : optres :=
  match minimize_k_min_waste exact_log 13 p with Ok r => r | Err _ => mkOR 0 0 0 0 0 0 0 0 end.
Definition ex_env2 (p : Z) : tenv toy := env_of toy (ex_opts Segmented 900) (ex_ctx Segmented) ex_meta (ex_opt p).
Example ex_optimizer : log_exact exact_log /\ ctx_wf (ex_ctx Segmented) /\
  Forall (fun pm => minimize_k_min_waste exact_log (zlen ex_meta) (fst pm) = Ok (ex_opt (fst pm)) /\
    or_m (ex_opt (fst pm)) = snd pm /\
    exists s0 np s, tb_init toy (ex_env2 (fst pm)) [] 0 = Ok s0 /\
      tb_build toy (fun _ => []) (mkFl 0 0) (ex_env2 (fst pm)) s0 = (Ok np, s)) [(4, 3); (20, 1)].
Proof.
  split; [apply exact_log_exact|]. split.
  { apply (nctx_create_wf toy (ex_opts Segmented 300) 1). vm_compute; reflexivity. }
  assert (X : forall p, match tb_init toy (ex_env2 p) [] 0 with
              | Ok s0 => match tb_build toy (fun _ => []) (mkFl 0 0) (ex_env2 p) s0 with
                         | (Ok _, s) => true | _ => false end
              | _ => false end = true ->
     exists s0 np s, tb_init toy (ex_env2 p) [] 0 = Ok s0 /\
      tb_build toy (fun _ => []) (mkFl 0 0) (ex_env2 p) s0 = (Ok np, s)).
  { intros p H. destruct (tb_init _ _ _ _) as [s0|]; [|discriminate].
    destruct (tb_build toy _ _ _ s0) as [[np|] s] eqn:E; [|discriminate]. exists s0, np, s. now split. }
  constructor; [|constructor; [|constructor]]; cbn [fst snd].
  all: split; [vm_compute; reflexivity|]; split; [vm_compute; reflexivity|]; apply X; vm_compute; reflexivity.
Qed.

(* without node sizes the group subtree sizes of an interior manifest are
   wrong: those of the top manifest do not add up to the bytes below it *)
Theorem C39_refuted : exists (v : tenv toy) s0 np s t, usable v /\ op_gsize (te_opt v) = true /\
  tb_init toy v [] 0 = Ok s0 /\ tb_build toy (fun _ => repeat 1 12) (mkFl 0 0) v s0 = (Ok np, s) /\
  shows toy (fun _ => repeat 1 12) v [] s np t /\ bytes_of toy v t = 1378 /\
  exists g1 g2 d1 d2, n_groups (fst np) = [g1; g2] /\ hg_data g1 = Some d1 /\ hg_data g2 = Some d2 /\
    gd_subtree_size d1 = Some 201 /\ gd_subtree_size d2 = Some 0.
Proof.
  exists (ex_env Segmented ENone false).
  assert (X : match tb_init toy (ex_env Segmented ENone false) [] 0 with
              | Ok s0 => match tb_build toy (fun _ => repeat 1 12) (mkFl 0 0) (ex_env Segmented ENone false) s0 with
                         | (Ok np, s) => map (fun g => option_map gd_subtree_size (hg_data g)) (n_groups (fst np))
                         | _ => []
                         end
              | _ => []
              end = [Some (Some 201); Some (Some 0)]) by (vm_compute; reflexivity).
  destruct (tb_init _ _ _ _) as [s0|] eqn:I; [|discriminate].
  destruct (tb_build toy _ _ _ s0) as [[np|] s] eqn:E; [|discriminate].
  destruct (C29_covers_chunks _ _ _ _ _ _ _ _ _ (ex_usable Segmented ENone false) I E) as (t & S & C).
  exists s0, np, s, t. split; [apply ex_usable|]. split; [reflexivity|]. split; [reflexivity|]. split; [exact E|].
  split; [exact S|]. split. { unfold bytes_of. rewrite C. vm_compute. reflexivity. }
  destruct (n_groups (fst np)) as [|g1 [|g2 [|]]]; try discriminate. cbn [map] in X.
  destruct (hg_data g1) as [d1|] eqn:G1; [|discriminate]. destruct (hg_data g2) as [d2|] eqn:G2; [|discriminate].
  cbn [option_map] in X. injection X as X1 X2. exists g1, g2, d1, d2. auto.
Qed.

Print Assumptions C28_build_raises_only_encoding_errors.
Print Assumptions C28_build_raises_only_factory_errors.
Print Assumptions C28_optimizer_usable.
Print Assumptions nctx_create_wf.
Print Assumptions C29_covers_chunks.
Print Assumptions C30_fan_out.
Print Assumptions C31_packed.
Print Assumptions C32_unique_ids.
Print Assumptions C33_start_ids.
Print Assumptions C33_no_start_ids.
Print Assumptions C34_top_id.
Print Assumptions C34_root_leads_to_top.
Print Assumptions C34_one_indirect_refuted.
Print Assumptions C34_refuted.
Print Assumptions C37_build_order.
Print Assumptions C38_subtree_sizes.
Print Assumptions C39_group_sizes.
Print Assumptions C39_without_node_sizes.
Print Assumptions C39_refuted.
Print Assumptions C57_nonces.
