(* C35-C37: whole builds and what a reader gets from them. *)
From Coq Require Import ZArith List Bool Lia ZifyBool.
From Verif Require Import Py Tlv Float Core TlvProofs CoreProofs Flic FlicProofs Crypto CryptoProofs
  PropsCrypto Optimizer OptimizerProofs Tree TreeSpec TreeProofs TreeFacts PropsOptimizer PropsTree ChunkProofs SizeProofs
  PropsChunk BuildProofs Store StoreSpec StoreProofs PropsStore Traversal TraversalSpec TraversalProofs EndSpec EndProofs ReadProofs.
Import ListNotations.
Open Scope Z_scope.

(** * C37: crash safety *)
(* Packets only ever get appended to the output, so the output at an earlier
   moment is an initial part of the one at the end of the run, whether the
   build returns or raises; [no_dangling] holds of every initial part. *)
Lemma ended_no_dangling : forall P clog rnd now (o : opts P) nc data s r s',
  log_ok clog -> op_max o <= 2 ^ 24 ->
  ended P clog rnd now o nc data s r s' ->
  exists new, ms_out s' = ms_out s ++ new /\ no_dangling o new.
Proof.
  intros P clog rnd now o nc data s r s' HL HM H.
  unfold ended in H. rename H into R.
  destruct r as [root|e].
  - destruct R as (k' & x & ps & l & pkts & meta & num & r & lv & t & np & b & k2 & SU & RS & RP & ->).
    cbn [ms_out]. eexists. split; [reflexivity|]. rewrite app_assoc.
    apply root_inv in RP as (h & m & w & Hh & Hm & Hw & _ & _ & Hb & _).
    assert (holds_node o root (root_node o x (zlen data) h)) as Hn.
    { eexists _, m, w. split; [exact Hb|]. do 2 (split; [reflexivity|]). split; [exact Hw|].
      unfold root_manifest in Hm. unfold manifest_of_node. destruct (op_enc o); eauto. }
    eapply no_dangling_snoc; [|exact Hn|].
    + rewrite <- (forest_infos_one t). eapply tree_no_dangling; [eapply nctx_create_wf; apply SU|apply SU|].
      constructor; [|constructor]. exists lv. apply RS.
    + cbn [root_node node_ptrs n_groups flat_map hg_ptrs app]. intros h' [<-|[]]. exists (mi_pkt (top t)). split; [|exact Hh].
      apply in_app_iff. right. apply in_map. rewrite <- order_infos. apply in_map. apply order_self.
  - destruct R as (_ & pkts & ts & -> & F). eexists. split; [reflexivity|].
    destruct pkts as [|p pkts]; [destruct ts as [|t ts]|].
    + intros [|? ?] ? ? E; discriminate.
    + destruct F as (x & ps & l & meta & Hx & _ & _ & _ & He & F); [right; discriminate|].
      destruct F as (k' & num & r & SU & W & _); [discriminate|].
      eapply tree_no_dangling; [eapply nctx_create_wf; apply SU|apply SU|exact W].
    + destruct F as (x & ps & l & meta & Hx & _ & _ & _ & He & F); [left; discriminate|].
      destruct ts as [|t ts].
      * cbn [forest_infos map rev concat]. rewrite app_nil_r. apply data_no_dangling. eapply emits_data. exact He.
      * destruct F as (k' & num & r & SU & W & _); [discriminate|].
        eapply tree_no_dangling; [eapply nctx_create_wf; apply SU|apply SU|exact W].
Qed.
Theorem C37_no_dangling : forall P clog rnd now (o : opts P) nc data s r s',
  log_ok clog -> op_max o <= 2 ^ 24 ->
  manifest_tree P clog rnd now o nc data s = (r, s') ->
  exists new, ms_out s' = ms_out s ++ new /\ no_dangling o new.
Proof.
  intros P clog rnd now o nc data s r s' HL HM H. eapply ended_no_dangling; try eassumption. eapply manifest_tree_ended; eassumption.
Qed.
(* No initial part of such an output has a dangling manifest either. *)
Lemma no_dangling_prefix {P} (o : opts P) a b : no_dangling o (a ++ b) -> no_dangling o a.
Proof. intros N pre p post ->. eapply N. rewrite <- app_assoc. reflexivity. Qed.

(* When the build succeeds the root manifest is the last packet, and it points
   to a manifest before it. *)
Lemma built_root_last : forall P clog rnd now (o : opts P) nc data s root s',
  log_ok clog -> op_max o <= 2 ^ 24 ->
  whole_build P clog rnd now o nc data s root s' ->
  exists body top h nd, ms_out s' = ms_out s ++ body ++ [root] /\
    holds_node o root nd /\ node_ptrs nd = [h] /\
    In top body /\ packet_hash (pr_sha P) top = Ok h /\ ~ is_data_object top.
Proof.
  intros P clog rnd now o nc data s root s' HL HM H.
  destruct H as (k' & x & ps & l & pkts & meta & num & r & lv & t & np & b & k2 & SU & RS & RP & ->).
  apply root_inv in RP as (h & m & w & Hh & Hm & Hw & _ & _ & Hb & _).
  exists (pkts ++ map mi_pkt (infos t)), (mi_pkt (top t)), h, (root_node o x (zlen data) h).
  cbn [ms_out]. split; [rewrite <- app_assoc; reflexivity|]. split; [|split; [reflexivity|split; [|split; [exact Hh|]]]].
  - eexists _, m, w. split; [exact Hb|]. do 2 (split; [reflexivity|]). split; [exact Hw|].
    unfold root_manifest in Hm. unfold manifest_of_node. destruct (op_enc o); eauto.
  - apply in_app_iff. right. apply in_map. rewrite <- order_infos. apply in_map. apply order_self.
  - intros (c & Hc & Ht). pose proof (rs_wf _ _ _ _ _ _ _ _ _ _ RS) as W.
    apply wf_faithful in W; [|eapply nctx_create_wf; apply SU]. destruct W as ((m' & w' & _ & _ & _ & Hb' & _) & _).
    rewrite Hc in Hb'. injection Hb' as ->. discriminate.
Qed.
Theorem C37_root_last : forall P clog rnd now (o : opts P) nc data s root s',
  log_ok clog -> op_max o <= 2 ^ 24 ->
  manifest_tree P clog rnd now o nc data s = (Ok root, s') ->
  exists body top h nd, ms_out s' = ms_out s ++ body ++ [root] /\
    holds_node o root nd /\ node_ptrs nd = [h] /\
    In top body /\ packet_hash (pr_sha P) top = Ok h /\ ~ is_data_object top.
Proof.
  intros P clog rnd now o nc data s root s' HL HM H. eapply built_root_last; try eassumption. eapply manifest_tree_ok; eassumption.
Qed.

(* C38 for a whole build: each manifest below the root holds a node with the
   number of file bytes below it, and the node of the root manifest has the
   size of the file. *)
Lemma built_sizes : forall z P clog rnd now (o : opts P) nc data s root s',
  log_ok clog -> op_max o <= 2 ^ 24 -> op_nsize o = true ->
  whole_build_at P clog rnd now o nc data z s root s' ->
  exists x l datas meta r t, let v := env_of P o x meta r in
    ms_out s' = ms_out s ++ datas ++ map mi_pkt (infos t) ++ [root] /\
    concat l = data /\ emits P o (nx_data x) z l datas meta /\ map cm_bytes meta = map zlen l /\
    chunks t = zrange 0 (zlen meta) /\ bytes_of P v t = zlen data /\
    Forall (fun u => holds_node o (mi_pkt (top u)) (mi_node (top u)) /\
      exists d, n_data (mi_node (top u)) = Some d /\ nd_size d = Some (bytes_of P v u)) (subtrees t) /\
    exists nd d, holds_node o root nd /\ n_data nd = Some d /\ nd_size d = Some (zlen data).
Proof.
  intros z P clog rnd now o nc data s root s' HL HM Ns H.
  destruct H as (k' & x & ps & l & pkts & meta & num & r & lv & t & np & b & k2 & (SU & He) & RS & RP & ->).
  apply root_inv in RP as (h & m & w & Hh & Hm & Hw & _ & _ & Hb & _).
  exists x, l, pkts, meta, r, t. intros v. split; [reflexivity|]. assert (pieces data l) as (Hc & _) by apply SU. split; [exact Hc|].
  split; [exact He|].
  assert (length pkts = length l) as Hl by apply SU. destruct (emits_sizes _ _ _ _ _ _ _ He Hl) as (Eb & _). split; [exact Eb|].
  assert (chunks t = zrange 0 (zlen meta)) as Ec by apply RS. split; [exact Ec|].
  split; [rewrite bytes_whole by exact Ec; change (te_meta v) with meta; rewrite Eb, zsum_concat; now rewrite Hc|]. split.
  - apply Forall_forall. intros u Hu. split.
    + assert (ctx_wf x) as Hx by (eapply nctx_create_wf; apply SU). assert (wf P rnd now v lv t) as W by apply RS.
      pose proof (wf_all_faithful P rnd now v lv t Hx W) as F. rewrite Forall_forall in F. destruct (F u Hu) as (Cu & _). eapply carries_holds; [|exact Cu]. reflexivity.
    + assert (wf P rnd now v lv t) as W by apply RS. destruct (wf_sub P rnd now v t lv W u Hu) as (l' & _ & W').
      rewrite (node_size_wf P rnd now v l' u W'). unfold size_data, opt_if. change (te_opt v) with o. rewrite Ns. eexists. split; reflexivity.
  - eexists (root_node o x (zlen data) h), _. split; [|split; [reflexivity|cbn [nd_size]; rewrite Ns; reflexivity]].
    eexists _, m, w. split; [exact Hb|]. do 2 (split; [reflexivity|]). split; [exact Hw|].
    unfold root_manifest in Hm. unfold manifest_of_node. destruct (op_enc o); eauto.
Qed.
Theorem C38_build : forall P clog rnd now (o : opts P) nc data s root s',
  log_ok clog -> op_max o <= 2 ^ 24 -> op_nsize o = true ->
  manifest_tree P clog rnd now o nc data s = (Ok root, s') ->
  exists x l datas meta r t, let v := env_of P o x meta r in
    ms_out s' = ms_out s ++ datas ++ map mi_pkt (infos t) ++ [root] /\
    concat l = data /\ emits P o (nx_data x) 0 l datas meta /\ map cm_bytes meta = map zlen l /\
    chunks t = zrange 0 (zlen meta) /\ bytes_of P v t = zlen data /\
    Forall (fun u => holds_node o (mi_pkt (top u)) (mi_node (top u)) /\
      exists d, n_data (mi_node (top u)) = Some d /\ nd_size d = Some (bytes_of P v u)) (subtrees t) /\
    exists nd d, holds_node o root nd /\ n_data nd = Some d /\ nd_size d = Some (zlen data).
Proof.
  intros P clog rnd now o nc data s root s' HL HM Ns H. eapply built_sizes; try eassumption. eapply manifest_tree_at; eassumption.
Qed.

(* C39 for the root manifest: it has one hash group, with one pointer and the
   size of the file if group sizes are asked for, and no leaf size. *)
Lemma built_root_group : forall P clog rnd now (o : opts P) nc data s root s',
  log_ok clog -> op_max o <= 2 ^ 24 ->
  whole_build P clog rnd now o nc data s root s' ->
  exists nd g d h, holds_node o root nd /\ n_groups nd = [g] /\ hg_data g = Some d /\ hg_ptrs g = Some [h] /\
    gd_subtree_size d = (if op_gsize o then Some (zlen data) else None) /\ gd_leaf_size d = None.
Proof.
  intros P clog rnd now o nc data s root s' HL HM H.
  destruct H as (k' & x & ps & l & pkts & meta & num & r & lv & t & np & b & k2 & SU & RS & RP & ->).
  apply root_inv in RP as (h & m & w & Hh & Hm & Hw & _ & _ & Hb & _).
  eexists (root_node o x (zlen data) h), _, _, h. split; [|split; [reflexivity|split; [reflexivity|split; [reflexivity|split; reflexivity]]]].
  eexists _, m, w. split; [exact Hb|]. do 2 (split; [reflexivity|]). split; [exact Hw|].
  unfold root_manifest in Hm. unfold manifest_of_node. destruct (op_enc o); eauto.
Qed.
Theorem C39_root : forall P clog rnd now (o : opts P) nc data s root s',
  log_ok clog -> op_max o <= 2 ^ 24 ->
  manifest_tree P clog rnd now o nc data s = (Ok root, s') ->
  exists nd g d h, holds_node o root nd /\ n_groups nd = [g] /\ hg_data g = Some d /\ hg_ptrs g = Some [h] /\
    gd_subtree_size d = (if op_gsize o then Some (zlen data) else None) /\ gd_leaf_size d = None.
Proof.
  intros P clog rnd now o nc data s root s' HL HM H. eapply built_root_group; try eassumption. eapply manifest_tree_ok; eassumption.
Qed.

(* Builds of 3000 bytes with all sizes: 14 or 16 packets, and ones that fail with
   AssertionError (tree degree 1) after the data objects have been written. *)
Definition ex_deg (ty : stype) (deg : option Z) : opts toy :=
  mkOpts toy (Some (ex_name [97])) ty None (Some (ex_name [97; 109])) (Some (ex_name [97; 100]))
    None None None None None ENone true true true deg 300.
Definition ex_outcome (o : opts toy) (data : bytes) : option exn * Z :=
  match manifest_tree toy exact_log (fun _ => []) (mkFl 0 0) o 1 data (mkMst [] 0) with
  | (Ok _, s) => (None, zlen (ms_out s))
  | (Err e, s) => (Some e, zlen (ms_out s))
  end.
Example C37_ex : log_ok exact_log /\
  map (fun ty => ex_outcome (ex_deg ty None) (repeat 7 3000)) [Hashed; Prefixed; Segmented] =
    [(None, 14); (None, 16); (None, 16)] /\
  map (fun ty => ex_outcome (ex_deg ty (Some 1)) (repeat 7 3000)) [Hashed; Prefixed; Segmented] =
    [(Some AssertionError, 11); (Some AssertionError, 12); (Some AssertionError, 12)].
Proof. split; [apply log_exact_ok, exact_log_exact|]. vm_compute. split; reflexivity. Qed.


(** * C35, C36: write then traverse *)

(* Both memory stores keep the packets put into them. *)
Theorem C35_memory_keeps : forall P ps m, foldM (mem_put P) mem_new ps = Ok m -> keeps P ps (mem_get (me_hash m)).
Proof.
  intros P ps m H nm h (p & Hp & Hh). apply minv_puts in H. pose proof (mi_get _ _ _ H h) as G. unfold mem_get.
  destruct (dict_get hashv_key_eqb h (me_hash m)) as [q|].
  - exists q. split; [eapply first_with_in; exact G|]. split; [destruct G as (? & ? & _ & E & _); exact E|reflexivity].
  - exfalso. exact (G p Hp Hh).
Qed.
Theorem C35_list_keeps : forall P ps d, mem_reader P ps = Ok d -> keeps P ps (mem_get d).
Proof.
  intros P ps d H nm h (p & Hp & Hh). pose proof (mem_reader_get P ps d H h) as G. unfold mem_get.
  destruct (dict_get hashv_key_eqb h d) as [q|].
  - exists q. destruct G as (l1 & l2 & -> & E & _). split; [apply in_app_iff; right; now left|]. split; [exact E|reflexivity].
  - exfalso. exact (G p Hp Hh).
Qed.

Section Build.
Context (P : prims) (clog : Z -> Z -> Z -> Z) (rnd : nat -> bytes) (now : fl) (o : opts P) (nc : Z) (data : bytes) (Hmax : op_max o <= 2 ^ 24).
Context (k k' : nat) (x : nctx) (ps : Z) (l : list bytes) (pkts : list packet) (meta : list cmeta) (num : Z) (r : optres)
  (SU : setup P clog rnd now o nc data k k' x ps l pkts meta num r).
Let v := env_of P o x meta r.
Context (out : list packet) (np : node * packet) (b : bst) (lv : nat) (t : tree) (RS : result P rnd now v out k' np b lv t).

Lemma setup_nonempty : 1 <= zlen meta.
Proof.
  destruct (Z.eq_dec (zlen meta) 0) as [E0|]; [|pose proof (zlen_nonneg meta); lia]. exfalso.
  pose proof (rs_chunks _ _ _ _ _ _ _ _ _ _ RS) as C. change (zlen (te_meta v)) with (zlen meta) in C. rewrite E0, zrange_nil in C by lia.
  pose proof (rs_wf _ _ _ _ _ _ _ _ _ _ RS) as W. destruct t as [i lo hi|i lo hi kids]; cbn [chunks] in C.
  - apply wf_leaf in W as (_ & _ & Hl & _). rewrite zrange_cons in C by lia. discriminate.
  - apply wf_inner in W as (? & _ & _ & _ & Hl & _). rewrite zrange_cons in C by lia. discriminate.
Qed.
Lemma setup_count : zlen meta = zlen l.
Proof.
  pose proof (emits_count P o _ _ _ _ _ (su_emits _ _ _ _ _ _ _ _ _ _ _ _ _ _ _ _ SU) (su_first _ _ _ _ _ _ _ _ _ _ _ _ _ _ _ _ SU)) as (_ & L).
  pose proof (su_len _ _ _ _ _ _ _ _ _ _ _ _ _ _ _ _ SU) as L'. unfold zlen; lia.
Qed.
Lemma setup_params : tree_params P clog rnd now o x (zlen meta) (zlen data) k = (Ok r, k').
Proof.
  unfold tree_params, sbind, lift. rewrite (su_num _ _ _ _ _ _ _ _ _ _ _ _ _ _ _ _ SU).
  pose proof (su_p _ _ _ _ _ _ _ _ _ _ _ _ _ _ _ _ SU). replace (2 <=? num) with true by lia. cbn [guard].
  rewrite (su_opt _ _ _ _ _ _ _ _ _ _ _ _ _ _ _ _ SU). reflexivity.
Qed.
Lemma setup_parameters : cut ps data l -> parameters P clog rnd now o nc data k (zlen meta) r /\ 1 <= zlen meta.
Proof.
  intros Hc. pose proof (su_pos _ _ _ _ _ _ _ _ _ _ _ _ _ _ _ _ SU) as Hp.
  pose proof (C24_cut_unique ps data l l Hp Hc Hc) as (_ & B). pose proof setup_count as E. split; [|exact setup_nonempty].
  exists x, ps, k'. split; [apply SU|]. split; [apply SU|]. split; [|exact setup_params].
  rewrite E. apply Z.div_unique with (r := zlen data + ps - 1 - ps * zlen l); [left; lia|lia].
Qed.

Lemma top_zero : log_exact clog -> zlen meta = 1 \/ 2 <= or_m r -> mi_id (top t) = 0.
Proof.
  intros Lex H. pose proof (log_exact_ok _ Lex) as Lok. pose proof setup_nonempty as N1.
  pose proof (emits_count P o _ _ _ _ _ (su_emits _ _ _ _ _ _ _ _ _ _ _ _ _ _ _ _ SU) (su_first _ _ _ _ _ _ _ _ _ _ _ _ _ _ _ _ SU)) as (N2 & _). pose proof (su_first _ _ _ _ _ _ _ _ _ _ _ _ _ _ _ _ SU) as N3. unfold MAX_CHUNK_ID in N2, N3.
  pose proof (su_opt _ _ _ _ _ _ _ _ _ _ _ _ _ _ _ _ SU) as E. pose proof (su_num _ _ _ _ _ _ _ _ _ _ _ _ _ _ _ _ SU) as M.
  apply max_pointers_bound in M; [|exact Hmax]. set (p := match op_degree o with None => num | Some d => Z.min num d end) in *.
  pose proof (optimizer_degree _ _ _ _ N1 E) as Hp. assert (p <= num) by (unfold p; destruct (op_degree o); lia).
  rewrite (top_id P rnd now v out k' np b lv t (su_usable _ _ _ _ _ _ _ _ _ _ _ _ _ _ _ _ SU) RS).
  destruct (minimize_k_spec clog (zlen meta) p ltac:(lia) ltac:(lia)) as (m & kk & Hm & Hk & E' & _ & _).
  rewrite E in E'. apply Ok_inj in E'.
  assert (EH : te_h v = opt_height (zlen meta) p m clog) by (unfold v; subst kk r; reflexivity).
  assert (EM : te_m v = m) by (unfold v; subst kk r; reflexivity). assert (or_m r = m) as ER by (subst r; reflexivity).
  assert (te_h v = Z.of_nat lv) as ->.
  { rewrite EH. pose proof (rs_height _ _ _ _ _ _ _ _ _ _ RS) as HL. unfold v, env_of in HL. cbn [te_d te_m te_meta] in HL. rewrite E' in HL. cbn [res_of or_d or_m] in HL.
    destruct (opt_height_ok (zlen meta) p m ltac:(lia) ltac:(lia) ltac:(lia) clog lv Lok HL) as (H1 & H2 & _ & _).
    destruct (Z_le_gt_dec 2 m) as [M2|M2]; [apply H2; [lia|exact Lex]|]. assert (zlen meta = 1) as EN by lia.
    destruct (opt_height_1 (zlen meta) p m ltac:(lia) ltac:(lia) ltac:(lia) clog EN Lok) as [A _]. specialize (A ltac:(lia)). lia. }
  rewrite Z.sub_diag. change (Z.to_nat (0 + 1)) with 1%nat. cbn [full]. lia.
Qed.
Lemma top_pos : log_ok clog -> 2 <= zlen meta -> or_m r = 1 -> 1 <= mi_id (top t).
Proof.
  intros Lok N M1.
  pose proof (emits_count P o _ _ _ _ _ (su_emits _ _ _ _ _ _ _ _ _ _ _ _ _ _ _ _ SU) (su_first _ _ _ _ _ _ _ _ _ _ _ _ _ _ _ _ SU)) as (N2 & _). pose proof (su_first _ _ _ _ _ _ _ _ _ _ _ _ _ _ _ _ SU) as N3. unfold MAX_CHUNK_ID in N2, N3.
  pose proof (su_opt _ _ _ _ _ _ _ _ _ _ _ _ _ _ _ _ SU) as E. pose proof (su_num _ _ _ _ _ _ _ _ _ _ _ _ _ _ _ _ SU) as M.
  apply max_pointers_bound in M; [|exact Hmax]. set (p := match op_degree o with None => num | Some d => Z.min num d end) in *.
  assert (1 <= zlen meta) as N1 by lia. pose proof (optimizer_degree _ _ _ _ N1 E) as Hp. assert (p <= num) by (unfold p; destruct (op_degree o); lia).
  rewrite (top_id P rnd now v out k' np b lv t (su_usable _ _ _ _ _ _ _ _ _ _ _ _ _ _ _ _ SU) RS).
  destruct (minimize_k_spec clog (zlen meta) p ltac:(lia) ltac:(lia)) as (m & kk & Hm & Hk & E' & _ & _).
  rewrite E in E'. apply Ok_inj in E'. pose proof (rs_height _ _ _ _ _ _ _ _ _ _ RS) as HL. unfold v, env_of in HL. cbn [te_d te_m te_meta] in HL.
  assert (EH : te_h v = opt_height (zlen meta) p m clog) by (unfold v; subst kk r; reflexivity).
  assert (EM : te_m v = m) by (unfold v; subst kk r; reflexivity). assert (or_m r = m) as ER by (subst r; reflexivity).
  rewrite E' in HL. cbn [res_of or_d or_m] in HL.
  destruct (opt_height_ok (zlen meta) p m ltac:(lia) ltac:(lia) ltac:(lia) clog lv Lok HL) as (_ & _ & H3 & _).
  specialize (H3 ltac:(lia) ltac:(lia)). rewrite EH, H3, EM. replace (full m) with (full 1) by (f_equal; lia). rewrite full_1.
  pose proof (k_bounds (zlen meta) p m ltac:(lia) ltac:(lia)) as K.
  assert (X : 1 <= leaf_of (zlen meta) p (p - m) (cdiv (zlen meta - p) (m * (p - 1)))).
  { unfold leaf_of. rewrite ER in M1. rewrite M1 in *. set (q := cdiv _ _) in *.
    assert (q * (p - 1) < zlen meta) by nia. replace (zlen meta - q * (p - 1) <=? 0) with false by nia.
    pose proof (cdiv_spec (zlen meta - q * (p - 1)) p ltac:(lia)). nia. }
  lia.
Qed.
End Build.

Lemma parameters_unique P clog rnd now (o : opts P) nc data k n r n' r' :
  parameters P clog rnd now o nc data k n r -> parameters P clog rnd now o nc data k n' r' -> n = n' /\ r = r'.
Proof.
  intros (x & ps & k1 & A1 & A2 & A3 & A4) (x' & ps' & k1' & B1 & B2 & B3 & B4). rewrite A1 in B1. apply Ok_inj in B1. subst x'.
  rewrite A2 in B2. apply Ok_inj in B2. subst ps'. subst n n'. split; [reflexivity|]. rewrite A4 in B4. now injection B4.
Qed.

(* Successful builds have parameters, and the stores take all their packets. *)
Theorem C35_build_stored : forall P clog rnd now (o : opts P) nc data s root s',
  log_ok clog -> op_max o <= 2 ^ 24 -> nc + 1 < 2 ^ 64 -> ms_out s = [] ->
  manifest_tree P clog rnd now o nc data s = (Ok root, s') ->
  exists m d hr n r, foldM (mem_put P) mem_new (ms_out s') = Ok m /\ mem_reader P (ms_out s') = Ok d /\
    packet_hash (pr_sha P) root = Ok hr /\ parameters P clog rnd now o nc data (ms_nonce s) n r /\ 1 <= n.
Proof.
  intros P clog rnd now o nc data s root s' HL HM Hnc Hs H.
  apply (manifest_tree_cut P clog rnd now o nc data HL HM) in H as (k' & x & ps & l & pkts & meta & num & r & lv & t & np & b & k2 & (SU & CUT & _) & RS & RP & ->).
  cbn [ms_out]. rewrite Hs. cbn [app].
  assert (F : Forall (fun p => exists w h, packet_wire p = Ok w /\ packet_hash (pr_sha P) p = Ok h) (pkts ++ map mi_pkt (infos t) ++ [root])).
  { apply Forall_app. split; [|apply Forall_app; split].
    - pose proof (su_emits _ _ _ _ _ _ _ _ _ _ _ _ _ _ _ _ SU) as E. apply Forall_forall. intros p Hp. apply In_nth_error in Hp as [j Hj].
      assert (L : (j < length pkts)%nat) by (apply nth_error_Some; congruence). pose proof (emits_nth _ _ _ _ _ _ _ E) as (L1 & L2 & _).
      destruct (emits_at P o _ l pkts meta (Z.of_nat j) E) as (bb & q & _ & Eq & D); [unfold zlen; lia|].
      rewrite Nat2Z.id in Eq. assert (q = p) as -> by congruence. destruct D as (nm & w & h & _ & _ & _ & _ & Hw & _ & _ & _ & _ & Hh & _). eauto.
    - apply Forall_forall. intros p Hp. apply in_map_iff in Hp as (i & <- & Hi). apply (Permutation.Permutation_in _ (infos_subtrees t)) in Hi.
      apply in_map_iff in Hi as (u & <- & Hu). destruct (wf_sub P rnd now _ t lv (rs_wf _ _ _ _ _ _ _ _ _ _ RS) u Hu) as (l' & _ & W).
      pose proof (nctx_create_wf _ _ _ _ (su_ctx _ _ _ _ _ _ _ _ _ _ _ _ _ _ _ _ SU)) as Hx.
      pose proof (wf_faithful P rnd now (env_of P o x meta r) l' u Hx W) as ((m & w & _ & _ & _ & _ & _ & _ & Hw) & _ & Hh & _). destruct Hw as [w' Hw]. eauto.
    - constructor; [|constructor]. apply root_inv in RP as (h & m & w & _ & _ & _ & _ & Hcr & _ & hr & Hhr).
      destruct (op_signer o) as [sg|].
      + apply sign_content_ok in Hcr as (a & tc & ta & vv & _ & _ & _ & _ & _ & _ & _ & Hcr).
        unfold create_signed_content_object in Hcr. inv_bind Hcr. inv_bind Hcr. inv_bind Hcr. inv_bind Hcr. apply Ok_inj in Hcr. subst root. eauto.
      + unfold create_content_object in Hcr. inv_bind Hcr. inv_bind Hcr. apply Ok_inj in Hcr. subst root. eauto. }
  assert (M1 : exists m, foldM (mem_put P) mem_new (pkts ++ map mi_pkt (infos t) ++ [root]) = Ok m).
  { generalize mem_new. induction F as [|p ps0 (w & h & Hw & Hh) _ IH]; intros m0; [eexists; reflexivity|]. cbn [foldM].
    unfold mem_put at 1, packet_len. rewrite Hw, Hh. cbn [bind]. destruct (dict_get _ _ _); cbn [bind]; apply IH. }
  assert (M2 : exists d, mem_reader P (pkts ++ map mi_pkt (infos t) ++ [root]) = Ok d).
  { unfold mem_reader. generalize (@nil (hashv * packet)). clear M1. induction F as [|p ps0 (w & h & Hw & Hh) _ IH]; intros m0; [eexists; reflexivity|]. cbn [foldM].
    unfold mem_index at 1. rewrite Hh. cbn [bind]. apply IH. }
  destruct M1 as (m & M1), M2 as (d & M2). apply Forall_app in F as (_ & F). apply Forall_app in F as (_ & F). inversion F as [|? ? (w & hr & _ & Hhr) _]; subst.
  destruct (setup_parameters _ _ _ _ _ _ _ _ _ _ _ _ _ _ _ _ SU _ _ _ _ _ RS CUT) as (PA & N1).
  exists m, d, hr, (zlen meta), r. auto.
Qed.

Lemma schema_ids P (o : opts P) nc x : nctx_create P o nc = Ok x -> uses_name_id (nx_man x) = true <-> op_type o = Segmented.
Proof.
  intros Hc. pose proof (ctx_impls P o nc x Hc (nx_man x) (or_introl eq_refl)) as (_ & _ & H). unfold made_of in H. unfold uses_name_id.
  destruct (op_type o); [destruct H as (? & -> & _)|destruct H as (? & -> & _)|destruct H as (? & ? & -> & _)]; split; congruence.
Qed.
Section Store.
Context (P : prims) (clog : Z -> Z -> Z -> Z) (rnd : nat -> bytes) (now : fl) (o : opts P) (nc : Z) (data : bytes)
  (HL : log_ok clog) (HM : op_max o <= 2 ^ 24) (Hnc : nc + 1 < 2 ^ 64)
  (Ha : aead_correct P) (Ho : oaep_correct P) (Hsg : sig_correct P)
  (Hpl : plain_prefixes o) (Hpr : printable_locators o) (ks : option (keystore P)) (Heq : equipped o ks).
Context (k k' : nat) (x : nctx) (ps : Z) (l : list bytes) (pkts : list packet) (meta : list cmeta) (num : Z) (r : optres)
  (SU : setup P clog rnd now o nc data k k' x ps l pkts meta num r)
  (out : list packet) (np : node * packet) (b : bst) (lv : nat) (t : tree) (RS : result P rnd now (env_of P o x meta r) out k' np b lv t)
  (k1 k2 : nat) (root : packet) (RP : root_packet P rnd now o x (zlen data) (mi_pkt (top t)) k1 = (Ok root, k2)).
Let new := pkts ++ map mi_pkt (infos t) ++ [root].
Context (get : option name -> option hashv -> res packet) (NC : no_collisions P new) (K : keeps P new get).

Lemma signer_known : forall sg, op_signer o = Some sg -> knows P ks sg.
Proof. destruct Heq as (_ & Hkn). intros sg Hg. rewrite Hg in Hkn. destruct sg; [exact I|exact Hkn]. Qed.
Lemma root_hash : exists hr, packet_hash (pr_sha P) root = Ok hr.
Proof. pose proof RP as X. apply root_inv in X as (? & ? & ? & _ & _ & _ & _ & _ & _ & X). exact X. Qed.
Lemma all_answered p : In p new -> available get ks p.
Proof.
  intros Hp. eapply (answered P Ha Ho Hsg clog rnd now o nc data HM Hnc _ _ _ _ _ _ _ _ _ SU _ _ _ _ _ RS _ _ root RP ks); try assumption.
  - apply Heq.
  - apply signer_known.
Qed.
Lemma root_in : In root new.
Proof. unfold new. rewrite !in_app_iff. right. right. now left. Qed.
Lemma store_reads : (op_type o = Segmented -> mi_id (top t) = 0) ->
  exists hr, packet_hash (pr_sha P) root = Ok hr /\ reads_back get ks (op_name o) hr (length new) data (zlen new).
Proof.
  intros Hid. destruct root_hash as (hr & Hhr). exists hr. split; [exact Hhr|]. intros fuel Hf.
  destruct (whole P Ha Ho clog rnd now o nc data HM Hnc _ _ _ _ _ _ _ _ _ SU _ _ _ _ _ RS _ _ root RP get ks Hpl Hpr (proj1 Heq)) with (hr := hr) (fuel := fuel) as (s' & E & E1 & E2); auto.
  - apply all_answered, root_in.
  - intros Hu. apply Hid. eapply schema_ids; [apply SU|exact Hu].
  - apply Forall_forall. intros p Hp. apply all_answered. unfold new. rewrite !in_app_iff. rewrite in_app_iff in Hp. tauto.
  - exists s'. split; [exact E|]. split; [|exact E2]. rewrite E1. apply (su_cut _ _ _ _ _ _ _ _ _ _ _ _ _ _ _ _ SU).
Qed.
Lemma store_refuses : op_type o = Segmented -> mi_id (top t) <> 0 -> mi_id (top t) < 2 ^ 64 ->
  exists hr, packet_hash (pr_sha P) root = Ok hr /\ forall fuel, (0 < fuel)%nat ->
    exists s, traverse P get true fuel (op_name o) (Some hr) (tst_new P ks) = (Err ValueError, s) /\ ts_out s = [] /\ ts_count s = 1.
Proof.
  intros Hty Hid Hb. destruct root_hash as (hr & Hhr). exists hr. split; [exact Hhr|]. intros fuel Hf.
  pose proof (su_ctx _ _ _ _ _ _ _ _ _ _ _ _ _ _ _ _ SU) as Hc. pose proof (nctx_create_wf _ _ _ _ Hc) as Hx.
  assert (exists h, packet_hash (pr_sha P) (mi_pkt (top t)) = Ok h) as (h & Hh).
  { pose proof RP as X. apply root_inv in X as (h & _ & _ & Hh & _). eauto. }
  pose proof (facts P clog rnd now o nc data _ _ _ _ _ _ _ _ _ SU _ _ _ _ _ RS h Hh) as (Hn & _).
  assert (exists n0 n1, impl_name (nx_man x) (Some 0) = Ok (Some n0) /\ body_name (mi_pkt (top t)) = Some n1 /\ n0 <> n1) as (n0 & n1 & H0 & H1 & Hne).
  { assert (0 <= mi_id (top t)) as Hp.
    { destruct (Z_le_gt_dec 0 (mi_id (top t))); [assumption|]. exfalso. clear - Hn Hc Hty g. pose proof (schema_ids _ _ _ _ Hc) as [_ Hu]. specialize (Hu Hty).
      unfold uses_name_id in Hu. unfold impl_name in Hn. destruct (im_schema (nx_man x)) as [| |[nm|] [ty|] ls f]; try discriminate.
      apply bind_ok in Hn as (a & Ea & _). apply number_to_array_ok in Ea as (? & _). lia. }
    assert (exists l, opt_tlvs name_tlv (body_name (mi_pkt (top t))) l) as Hl.
    { destruct (body_name (mi_pkt (top t))) as [n|] eqn:E; [|exists []; reflexivity].
      pose proof (new_ok P Hsg clog rnd now o nc data HM Hnc _ _ _ _ _ _ _ _ _ SU _ _ _ _ _ RS _ _ root RP ks signer_known (mi_pkt (top t))) as ((w & Hw) & _).
      { rewrite in_app_iff. right. rewrite in_app_iff. left. apply in_map. rewrite <- order_infos. apply in_map. apply order_self. }
      destruct (packet_name_ok _ _ _ Hw E) as (tn & Htn). exists [tn], tn. auto. }
    destruct (impl_name_mono (nx_man x) 0 _ _ (conj (Z.le_refl 0) Hp) Hn Hl) as (na & H0 & _).
    pose proof (schema_ids _ _ _ _ Hc) as [_ Hu]. specialize (Hu Hty). unfold uses_name_id in Hu. unfold impl_name in *.
    destruct (im_schema (nx_man x)) as [| |[nm|] [ty|] ls f]; try discriminate.
    apply bind_ok in Hn as (a & Ea & Hn). apply bind_ok in Hn as (c & Ec & Hn). apply bind_ok in Hn as (tn & En & Hn). apply Ok_inj in Hn.
    apply bind_ok in H0 as (a0 & Ea0 & H0). apply bind_ok in H0 as (c0 & Ec0 & H0). apply bind_ok in H0 as (tn0 & En0 & H0). apply Ok_inj in H0.
    exists (nm ++ [mkComp ty KArray a0]), (nm ++ [mkComp ty KArray a]). split; [rewrite Ea0; cbn [bind]; rewrite Ec0; cbn [bind]; rewrite En0; reflexivity|].
    split; [now symmetry|]. intros X. apply app_inv_head in X. injection X as X. subst a0.
    apply number_to_array_ok in Ea as (N0 & _ & Ea & _). apply number_to_array_ok in Ea0 as (_ & _ & Ea0 & _). rewrite Ea in Ea0.
    rewrite !Z.mod_small in Ea0 by lia. contradiction. }
  eapply (whole_not P Ha Ho clog rnd now o nc data HM Hnc _ _ _ _ _ _ _ _ _ SU _ _ _ _ _ RS _ _ root RP get ks Hpl Hpr (proj1 Heq)); try eassumption.
  - apply all_answered, root_in.
  - eapply schema_ids; [exact Hc|exact Hty].
  - eapply (refused_name P Ha Ho Hsg clog rnd now o nc data HM Hnc _ _ _ _ _ _ _ _ _ SU _ _ _ _ _ RS _ _ root RP ks); try eassumption.
    + apply Heq.
    + apply signer_known.
    + rewrite H1. congruence.
    + congruence.
Qed.
End Store.

(* Any store that keeps the packets of the build gives the data back. *)
Lemma built_reads : forall P clog rnd now (o : opts P) nc data s root s' ks get,
  log_ok clog -> op_max o <= 2 ^ 24 -> nc + 1 < 2 ^ 64 ->
  aead_correct P -> oaep_correct P -> sig_correct P ->
  op_type o <> Segmented -> plain_prefixes o -> printable_locators o -> equipped o ks -> ms_out s = [] ->
  whole_build P clog rnd now o nc data s root s' ->
  no_collisions P (ms_out s') -> keeps P (ms_out s') get ->
  exists hr, packet_hash (pr_sha P) root = Ok hr /\
    reads_back get ks (op_name o) hr (length (ms_out s')) data (zlen (ms_out s')).
Proof.
  intros P clog rnd now o nc data s root s' ks get HL HM Hnc Ha Ho Hsg Hty Hpl Hpr Heq Hs H NC K.
  destruct H as (k' & x & ps & l & pkts & meta & num & r & lv & t & np & b & k2 & SU & RS & RP & ->).
  cbn [ms_out] in *. rewrite Hs in *. cbn [app] in *.
  eapply (store_reads P clog rnd now o nc data HM Hnc Ha Ho Hsg Hpl Hpr ks Heq _ _ _ _ _ _ _ _ _ SU _ _ _ _ _ RS _ _ root RP get NC K).
  intros X. contradiction.
Qed.
Theorem C35_read_back : forall P clog rnd now (o : opts P) nc data s root s' ks get,
  log_ok clog -> op_max o <= 2 ^ 24 -> nc + 1 < 2 ^ 64 ->
  aead_correct P -> oaep_correct P -> sig_correct P ->
  op_type o <> Segmented -> plain_prefixes o -> printable_locators o -> equipped o ks -> ms_out s = [] ->
  manifest_tree P clog rnd now o nc data s = (Ok root, s') ->
  no_collisions P (ms_out s') -> keeps P (ms_out s') get ->
  exists hr, packet_hash (pr_sha P) root = Ok hr /\
    reads_back get ks (op_name o) hr (length (ms_out s')) data (zlen (ms_out s')).
Proof.
  intros P clog rnd now o nc data s root s' ks get HL HM Hnc Ha Ho Hsg Hty Hpl Hpr Heq Hs H NC K. eapply built_reads; try eassumption. eapply manifest_tree_ok; eassumption.
Qed.

(* The segmented schema, with a logarithm without rounding errors: the same,
   when there is one chunk or the optimizer picks at least two indirect
   pointers. *)
Theorem C36_read_back : forall P clog rnd now (o : opts P) nc data s root s' ks get n r,
  log_exact clog -> op_max o <= 2 ^ 24 -> nc + 1 < 2 ^ 64 ->
  aead_correct P -> oaep_correct P -> sig_correct P ->
  op_type o = Segmented -> plain_prefixes o -> equipped o ks -> ms_out s = [] ->
  manifest_tree P clog rnd now o nc data s = (Ok root, s') ->
  parameters P clog rnd now o nc data (ms_nonce s) n r -> n = 1 \/ 2 <= or_m r ->
  no_collisions P (ms_out s') -> keeps P (ms_out s') get ->
  exists hr, packet_hash (pr_sha P) root = Ok hr /\
    reads_back get ks (op_name o) hr (length (ms_out s')) data (zlen (ms_out s')).
Proof.
  intros P clog rnd now o nc data s root s' ks get n r HL HM Hnc Ha Ho Hsg Hty Hpl Heq Hs H PA Hnr NC K.
  pose proof (log_exact_ok _ HL) as HL'.
  apply (manifest_tree_cut P clog rnd now o nc data HL' HM) in H as (k' & x & ps & l & pkts & meta & num & r' & lv & t & np & b & k2 & (SU & CUT & _) & RS & RP & ->).
  cbn [ms_out] in *. rewrite Hs in *. cbn [app] in *.
  assert (printable_locators o) as Hpr by (unfold printable_locators; rewrite Hty; exact I).
  destruct (setup_parameters _ _ _ _ _ _ _ _ _ _ _ _ _ _ _ _ SU _ _ _ _ _ RS CUT) as (PA' & _).
  destruct (parameters_unique _ _ _ _ _ _ _ _ _ _ _ _ PA PA') as (-> & ->).
  eapply (store_reads P clog rnd now o nc data HM Hnc Ha Ho Hsg Hpl Hpr ks Heq _ _ _ _ _ _ _ _ _ SU _ _ _ _ _ RS _ _ root RP get NC K).
  intros _. eapply (top_zero P clog rnd now o nc data HM _ _ _ _ _ _ _ _ _ SU _ _ _ _ _ RS); assumption.
Qed.
(* Otherwise the root manifest names the top manifest wrongly: the traversal
   raises ValueError and has written nothing. *)
Theorem C36_one_indirect_refuted : forall P clog rnd now (o : opts P) nc data s root s' ks get n r,
  log_ok clog -> op_max o <= 2 ^ 24 -> nc + 1 < 2 ^ 64 ->
  aead_correct P -> oaep_correct P -> sig_correct P ->
  op_type o = Segmented -> plain_prefixes o -> equipped o ks -> ms_out s = [] ->
  manifest_tree P clog rnd now o nc data s = (Ok root, s') ->
  parameters P clog rnd now o nc data (ms_nonce s) n r -> 2 <= n -> or_m r = 1 ->
  no_collisions P (ms_out s') -> keeps P (ms_out s') get ->
  exists hr, packet_hash (pr_sha P) root = Ok hr /\ forall fuel, (0 < fuel)%nat ->
    exists ts, traverse P get true fuel (op_name o) (Some hr) (tst_new P ks) = (Err ValueError, ts) /\
      ts_out ts = [] /\ ts_count ts = 1.
Proof.
  intros P clog rnd now o nc data s root s' ks get n r HL HM Hnc Ha Ho Hsg Hty Hpl Heq Hs H PA Hn Hr NC K.
  apply (manifest_tree_cut P clog rnd now o nc data HL HM) in H as (k' & x & ps & l & pkts & meta & num & r' & lv & t & np & b & k2 & (SU & CUT & _) & RS & RP & ->).
  cbn [ms_out] in *. rewrite Hs in *. cbn [app] in *.
  assert (printable_locators o) as Hpr by (unfold printable_locators; rewrite Hty; exact I).
  destruct (setup_parameters _ _ _ _ _ _ _ _ _ _ _ _ _ _ _ _ SU _ _ _ _ _ RS CUT) as (PA' & _).
  destruct (parameters_unique _ _ _ _ _ _ _ _ _ _ _ _ PA PA') as (-> & ->).
  eapply (store_refuses P clog rnd now o nc data HM Hnc Ha Ho Hsg Hpl Hpr ks Heq _ _ _ _ _ _ _ _ _ SU _ _ _ _ _ RS _ _ root RP get NC K).
  - exact Hty.
  - pose proof (top_pos P clog rnd now o nc data HM _ _ _ _ _ _ _ _ _ SU _ _ _ _ _ RS HL Hn Hr). lia.
  - eapply id_bound; [exact SU|exact RS|]. apply subtrees_self.
Qed.

(* ---------------- examples ---------------- *)
(* no packet of the first list has the hash of one of the second and other
   bytes *)
Definition ex_ident (p : packet) : option (hashv * bytes) :=
  match packet_hash (pr_sha toy) p, packet_hash_input p with Ok h, Ok i => Some (h, i) | _, _ => None end.
Definition ex_agree (a b : option (hashv * bytes)) : bool :=
  match a, b with
  | Some (h, i), Some (h', j) => negb (hashv_key_eqb h h') || beqb i j
  | _, _ => false
  end.
Definition ex_same (ps qs : list packet) : bool :=
  let l := map ex_ident qs in forallb (fun k => forallb (ex_agree k) l) (map ex_ident ps).
Lemma ex_same_ok ps : ex_same ps ps = true -> no_collisions toy ps.
Proof.
  intros H p q h Hp Hq E1 E2. unfold ex_same in H. cbv zeta in H. rewrite forallb_forall in H. specialize (H _ (in_map ex_ident _ _ Hp)).
  rewrite forallb_forall in H. specialize (H _ (in_map ex_ident _ _ Hq)). unfold ex_ident in H. rewrite E1, E2 in H.
  destruct (packet_hash_input p), (packet_hash_input q); try discriminate. cbn [ex_agree] in H.
  replace (hashv_key_eqb h h) with true in H by (symmetry; apply hashv_key_eqb_spec; reflexivity).
  cbn [negb orb] in H. apply beqb_spec in H. congruence.
Qed.
(* data, in the clear and encrypted with a signed root manifest *)
Definition ex_bytes (n : nat) : bytes := map (fun i => Z.of_nat i * Z.of_nat i mod 251) (seq 0 n).
Definition ex_ap : aparams := mkAP (mkAK GCM (repeat 1 16)) 5 None None None.
Definition ex_secret (ty : stype) (mx : Z) : opts toy :=
  mkOpts toy (Some (ex_name [97])) ty (Some (SRsa (P := toy) 7)) (Some (ex_name [97; 109])) (Some (ex_name [97; 100]))
    None None None None None (EAead ex_ap) true true true None mx.
Definition ex_nonce (o : opts toy) : nat -> bytes :=
  fun _ => repeat 9 (match op_enc o with EOaep _ => 8 | _ => 12 end)%nat.
Definition ex_read (o : opts toy) (ks : option (keystore toy)) (data : bytes) : option exn * bool * Z * bool :=
  match manifest_tree toy exact_log (ex_nonce o) (mkFl 0 0) o 1 data (mkMst [] 0) with
  | (Err e, _) => (Some e, false, 0, false)
  | (Ok root, s) =>
    match foldM (mem_put toy) mem_new (ms_out s), packet_hash (pr_sha toy) root with
    | Ok m, Ok h =>
      let '(r, t) := traverse toy (mem_get (me_hash m)) true (length (ms_out s)) (op_name o) (Some h) (tst_new toy ks) in
      (match r with Ok _ => None | Err e => Some e end, beqb (concat (ts_out t)) data, ts_count t,
       ex_same (ms_out s) (ms_out s))
    | _, _ => (None, false, 0, false)
    end
  end.
(* the receiver holds the RSA key and the symmetric key with number 5 *)
Definition ex_rsa : hashv * rsakey toy := (mkHash T_SHA_256 (repeat 8 32), RPriv (P := toy) 7).
Definition ex_store : keystore toy := mkKS toy [] [ex_rsa] [(5, ex_ap)].
(* the receiver holds only the RSA key, the root manifest has the wrapped key *)
Definition ex_ap2 : aparams := mkAP (mkAK GCM (repeat 1 16)) 5 (Some 77) None None.
Definition ex_wr : wrapper :=
  match wrapper_create toy (RPub (P := toy) 7) [] ex_ap2 with Ok w => w | Err _ => mkWrap (mkHash 0 []) None None None end.
Definition ex_wrapped (ty : stype) (mx : Z) : opts toy :=
  mkOpts toy (Some (ex_name [97])) ty (Some (SRsa (P := toy) 7)) (Some (ex_name [97; 109])) (Some (ex_name [97; 100]))
    None None None None None (EOaep (mkOI (Some ex_wr) ex_ap2)) true true true None mx.
Definition ex_store2 : keystore toy := mkKS toy [] [ex_rsa] [].
Lemma ex_signer (st : keystore toy) : ks_keyid _ st = [ex_rsa] ->
  exists store kid k, Some st = Some store /\ rsa_keyid toy (RPriv (P := toy) 7) = Ok kid /\
    get_rsa toy store (QHash kid) = Ok k /\ rsa_pub toy k = pr_pub toy 7.
Proof.
  intros H. exists st, (mkHash T_SHA_256 (repeat 8 32)), (RPriv (P := toy) 7).
  split; [reflexivity|]. split; [vm_compute; reflexivity|]. split; [|reflexivity].
  unfold get_rsa. rewrite H. reflexivity.
Qed.
Lemma ex_equipped ty mx : equipped (ex_secret ty mx) (Some ex_store).
Proof.
  split.
  - cbn [can_open op_enc ex_secret]. split.
    + split; [cbn [ap_num ex_ap]; lia|]. intros k X. discriminate X.
    + exists ex_store. split; [reflexivity|]. exists ex_ap. repeat split.
  - cbn [op_signer ex_secret]. apply ex_signer. reflexivity.
Qed.
Lemma ex_equipped2 ty mx : equipped (ex_wrapped ty mx) (Some ex_store2).
Proof.
  assert (wrapper_create toy (RPub (P := toy) 7) [] ex_ap2 = Ok ex_wr) as W by (vm_compute; reflexivity).
  split.
  - cbn [can_open op_enc ex_wrapped oi_params oi_wrapper]. split; [|split].
    + split; [cbn [ap_num ex_ap2]; lia|]. intros k X. discriminate X.
    + intros wr X. assert (wr = ex_wr) as -> by congruence. exists (RPub (P := toy) 7), []. exact W.
    + exists ex_store2. split; [reflexivity|]. right. exists ex_wr. split; [reflexivity|].
      split; [intros q X; discriminate X|]. split; [apply Forall_forall; intros b X; apply repeat_spec in X; subst b; lia|].
      exists (RPub (P := toy) 7), 7, []. split; [reflexivity|]. split; [exact W|]. reflexivity.
  - cbn [op_signer ex_wrapped]. apply ex_signer. reflexivity.
Qed.
Lemma ex_plain b : plain_name (Some (ex_name b)).
Proof. intros m [= <-]. apply Forall_map, Forall_forall. intros c _. reflexivity. Qed.
Example C35_ex :
  log_ok exact_log /\ aead_correct toy /\ oaep_correct toy /\ sig_correct toy /\
  (forall ty, plain_prefixes (ex_secret ty 400) /\ printable_locators (ex_secret ty 400) /\
    equipped (ex_secret ty 400) (Some ex_store) /\ equipped (ex_wrapped ty 400) (Some ex_store2)) /\
  ex_read (ex_secret Hashed 400) (Some ex_store) (ex_bytes 1300) = (None, true, 6, true) /\
  ex_read (ex_secret Prefixed 400) (Some ex_store) (ex_bytes 1000) = (None, true, 5, true) /\
  ex_read (ex_wrapped Hashed 500) (Some ex_store2) (ex_bytes 900) = (None, true, 4, true) /\
  ex_read (ex_deg Hashed None) None (ex_bytes 1000) = (None, true, 6, true).
Proof.
  split; [exact (log_exact_ok _ exact_log_exact)|]. split; [exact toy_aead|]. split; [exact toy_oaep|]. split; [exact toy_sig|].
  split; [intros ty; split; [|split; [|split; [apply ex_equipped|apply ex_equipped2]]]|].
  - destruct ty; cbn [plain_prefixes op_type ex_secret]; try exact I; (split; [|split]); apply ex_plain.
  - destruct ty; try exact I. intros l n c X L C. cbn in X. destruct X as [<-|[]]. cbn in L. injection L as <-.
    destruct C as [<-|[]]. split; [intros _; vm_compute; reflexivity|intros [H|H]; discriminate H].
  - split; [vm_compute; reflexivity|]. split; [vm_compute; reflexivity|]. split; vm_compute; reflexivity.
Qed.
(* the number of chunks and of indirect pointers *)
Definition ex_shape (o : opts toy) (data : bytes) : option (Z * Z) :=
  match nctx_create toy o 1 with
  | Ok x => match payload_size toy o (nx_data x) with
    | Ok ps => let n := (zlen data + ps - 1) / ps in
        match tree_params toy exact_log (ex_nonce o) (mkFl 0 0) o x n (zlen data) 0%nat with
        | (Ok r, _) => Some (n, or_m r)
        | _ => None
        end
    | Err _ => None
    end
  | Err _ => None
  end.
Lemma ex_shape_ok o data n m : ex_shape o data = Some (n, m) ->
  exists r, parameters toy exact_log (ex_nonce o) (mkFl 0 0) o 1 data 0 n r /\ or_m r = m.
Proof.
  unfold ex_shape. destruct (nctx_create toy o 1) as [x|] eqn:E1; [|discriminate].
  destruct (payload_size toy o (nx_data x)) as [ps|] eqn:E2; [|discriminate].
  destruct (tree_params _ _ _ _ _ _ _ _ _) as [[r|e] k] eqn:E3; [|discriminate].
  intros [= <- <-]. exists r. split; [|reflexivity]. exists x, ps, k. split; [exact E1|]. split; [exact E2|]. split; [reflexivity|exact E3].
Qed.
Example C36_ex :
  log_exact exact_log /\
  ex_shape (ex_secret Segmented 300) (ex_bytes 1500) = Some (6, 2) /\
  ex_read (ex_secret Segmented 300) (Some ex_store) (ex_bytes 1500) = (None, true, 10, true) /\
  ex_shape (ex_secret Segmented 400) (ex_bytes 200) = Some (1, 1) /\
  ex_read (ex_secret Segmented 400) (Some ex_store) (ex_bytes 200) = (None, true, 3, true) /\
  (* two or more chunks and one indirect pointer *)
  ex_shape (ex_secret Segmented 400) (ex_bytes 500) = Some (2, 1) /\
  ex_read (ex_secret Segmented 400) (Some ex_store) (ex_bytes 500) = (Some ValueError, false, 1, true).
Proof. split; [exact exact_log_exact|]. do 5 (split; [vm_compute; reflexivity|]). vm_compute. reflexivity. Qed.
Print Assumptions C37_no_dangling.
Print Assumptions C37_root_last.
Print Assumptions C38_build.
Print Assumptions C39_root.
Print Assumptions C35_read_back.
Print Assumptions C35_build_stored.
Print Assumptions C35_memory_keeps.
Print Assumptions C35_list_keeps.
Print Assumptions C36_read_back.
Print Assumptions C36_one_indirect_refuted.
