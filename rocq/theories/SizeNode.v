(* Lengths of the manifests of a tree against the reference manifest of the
   size calculator, used by PropsSize.v. *)
From Coq Require Import ZArith List Bool Lia ZifyBool.
From Verif Require Import Py Tlv Float Core TlvProofs FloatProofs CoreProofs Flic FlicProofs Spec Crypto CryptoProofs
  Optimizer OptimizerProofs Tree TreeSpec TreeProofs TreeFacts PropsTree ChunkProofs SizeProofs PropsChunk.
Import ListNotations.
Open Scope Z_scope.
Opaque tlv_make tlv_wire tlv_deserialize.

(* bytes of n beyond k in its encoding *)
Definition over (k : Z) (n : option Z) : Z := match n with None => 0 | Some n => Z.max 0 (int_width n - k) end.
(* what the integers in the hash groups of a node take beyond the one byte per
   size and three bytes per start id that the reference manifest has *)
Definition group_extra (g : hgroup) : Z :=
  match hg_data g with
  | None => 0
  | Some d => over 1 (gd_subtree_size d) + over 1 (gd_leaf_size d) + over 3 (gd_start d)
  end.
Definition extra (nd : node) : Z := zsum (map group_extra (n_groups nd)).

Lemma over_nonneg k n : 0 <= over k n. Proof. destruct n; cbn [over]; lia. Qed.
Lemma olen_over k n : olen n <= 4 + k + over k n \/ n = None.
Proof. destruct n as [n|]; [left|now right]. cbn [olen over]. unfold int_width, int_len. lia. Qed.
Lemma olen_if k (b : bool) z : 0 <= k -> olen (opt_if b z) <= 4 + k + over k (opt_if b z).
Proof. intros Hk. destruct (olen_over k (opt_if b z)) as [H| ->]; [exact H|]. cbn [olen over]. lia. Qed.
Lemma olen_if' k (b : bool) z : 0 <= k -> olen (opt_if b z) <= (if b then 4 + k else 0) + over k (opt_if b z).
Proof. intros Hk. destruct b; [apply (olen_if k true)|cbn]; lia. Qed.

Section Node.
Context (P : prims).
Variable rnd : nat -> bytes.
Variable now : fl.
Variable v : tenv P.
Let o := te_opt v.
Let x := te_ctx v.
Let n := zlen (te_meta v).
Hypothesis Hx : ctx_wf x.
Hypothesis HS : sha_ok P.
Hypothesis Hmeta : Forall (fun c => sha_len (cm_hash c) /\ 0 <= cm_bytes c) (te_meta v).
Variable total : Z.
Hypothesis Htotal : total = zsum (map cm_bytes (te_meta v)).

Lemma chunk_meta_in i : 0 <= i < n -> In (chunk_meta P v i) (te_meta v).
Proof. intros Hi. apply nth_In. unfold n, zlen in Hi. lia. Qed.
Lemma chunk_hashes_sha lo hi : 0 <= lo -> hi <= n -> Forall sha_len (chunk_hashes P v lo hi).
Proof.
  intros Hl Hh. unfold chunk_hashes. apply Forall_forall. intros h H. apply in_map_iff in H as (i & <- & Hi).
  apply zrange_in in Hi. rewrite Forall_forall in Hmeta. apply Hmeta, chunk_meta_in. lia.
Qed.
Lemma pkt_hash_sha i : made P rnd now v i -> sha_len (pkt_hash P (mi_pkt i)).
Proof.
  intros (_ & _ & H). unfold packet_hash in H. apply bind_ok in H as (w & _ & H). apply bind_ok in H as (t & _ & H).
  apply Ok_inj in H. rewrite <- H. unfold sha_len. cbn [h_val]. unfold zlen. destruct (HS w) as (_ & ->). reflexivity.
Qed.
Lemma kid_hashes_sha l kids : Forall (wf P rnd now v l) kids -> Forall sha_len (kid_hashes P kids).
Proof.
  intros W. unfold kid_hashes. apply Forall_forall. intros h H. apply in_map_iff in H as (t & <- & Ht).
  rewrite Forall_forall in W. apply pkt_hash_sha. eapply wf_made. apply W, Ht.
Qed.
Lemma chunk_bytes_nonneg lo hi : 0 <= lo -> hi <= n -> 0 <= chunk_bytes P v (zrange lo hi).
Proof.
  intros Hl Hh. unfold chunk_bytes. assert (forall i, In i (zrange lo hi) -> 0 <= cm_bytes (chunk_meta P v i)) as H.
  { intros i Hi. apply zrange_in in Hi. rewrite Forall_forall in Hmeta. apply Hmeta, chunk_meta_in. lia. }
  induction (zrange lo hi) as [|a l IH]; [reflexivity|]. cbn [map]. rewrite zsum_cons.
  pose proof (H a ltac:(now left)). pose proof (IH ltac:(intros; apply H; now right)). lia.
Qed.
Lemma chunk_bytes_all : chunk_bytes P v (zrange 0 n) = total.
Proof.
  rewrite Htotal. unfold chunk_bytes. f_equal. rewrite <- (map_map (chunk_meta P v) cm_bytes). f_equal.
  unfold chunk_meta, n, zrange, zlen. rewrite Z.sub_0_r, Nat2Z.id. generalize (te_meta v) as ms. clear. intros ms.
  assert (X : forall (k : nat) (pre : list cmeta), length pre = k ->
    map (fun i => nth (Z.to_nat i) (pre ++ ms) no_chunk) (zseq (Z.of_nat k) (length ms)) = ms).
  { induction ms as [|a ms IH]; intros k pre Hk; [reflexivity|]. cbn [length zseq map]. f_equal.
    - rewrite Nat2Z.id, app_nth2 by lia. now rewrite Hk, Nat.sub_diag.
    - replace (Z.of_nat k + 1) with (Z.of_nat (S k)) by lia.
      specialize (IH (S k) (pre ++ [a])). rewrite <- app_assoc in IH. cbn [app] in IH. apply IH.
      rewrite app_length. cbn [length]. lia. }
  apply (X 0%nat []). reflexivity.
Qed.
Lemma chunk_bytes_le lo hi : 0 <= lo <= hi -> hi <= n -> 0 <= chunk_bytes P v (zrange lo hi) <= total.
Proof.
  intros Hl Hh. rewrite <- chunk_bytes_all. rewrite (zrange_app 0 lo n), (zrange_app lo hi n), !chunk_bytes_app by lia.
  pose proof (chunk_bytes_nonneg 0 lo ltac:(lia) ltac:(lia)). pose proof (chunk_bytes_nonneg lo hi ltac:(lia) ltac:(lia)).
  pose proof (chunk_bytes_nonneg hi n ltac:(lia) ltac:(lia)). lia.
Qed.
Lemma kids_bytes_follow hi kids : follows P v hi kids -> exists e, hi <= e <= n /\
  kids_bytes P v kids = (if op_nsize o then chunk_bytes P v (zrange hi e) else 0).
Proof.
  intros (e & He & E). exists e. split; [exact He|]. unfold kids_bytes, o. destruct (op_nsize (te_opt v)); [|reflexivity].
  rewrite <- E. clear. induction kids as [|k ks IH]; [reflexivity|]. cbn [map flat_map].
  now rewrite chunk_bytes_app, zsum_cons, IH.
Qed.

Lemma zlen_chunk_hashes lo hi : lo <= hi -> zlen (chunk_hashes P v lo hi) = hi - lo.
Proof. intros H. unfold chunk_hashes. rewrite zlen_map, zrange_len. lia. Qed.
Lemma zlen_kid_hashes kids : zlen (kid_hashes P kids) = zlen kids.
Proof. apply zlen_map. Qed.

Lemma nd_len_mono (b : bool) z : 0 <= z <= total -> nd_len (opt_if b z) <= nd_len (opt_if b total).
Proof. intros H. destruct b; cbn [nd_len opt_if]; [|lia]. pose proof (int_len_mono z total H). lia. Qed.
Lemma size_data_gnode b gs : mkNode (size_data P v b) (map (fun y => mkHG (Some (fst y)) (Some (snd y))) gs) None
  = gnode (opt_if (op_nsize o) b) gs.
Proof. unfold gnode, size_data, opt_if, o. destruct (op_nsize (te_opt v)); reflexivity. Qed.

(* the groups of a planned node *)
Lemma planned_shape nd : planned P rnd now v nd -> exists s gs, nd = gnode s gs /\ Forall plain gs /\
  exists b, s = opt_if (op_nsize o) b /\ 0 <= b <= total.
Proof.
  intros [(lo & hi & L & H & K & ->)|(l & lo & hi & kids & L & F & K & Kn & Km & W & _ & ->)].
  - unfold leaf_node. eexists (opt_if (op_nsize o) _), [(_, _)]. split.
    { rewrite <- size_data_gnode. reflexivity. }
    split; [|eexists; split; [reflexivity|apply chunk_bytes_le; lia]].
    constructor; [|constructor]. split; [reflexivity|]. split; [reflexivity|]. apply chunk_hashes_sha; unfold n; lia.
  - pose proof F as (e0 & He0 & _). apply kids_bytes_follow in F as (e & He & Ek).
    assert (0 <= chunk_bytes P v (zrange lo hi) + kids_bytes P v kids <= total) as Hb.
    { rewrite Ek. destruct (op_nsize o).
      - rewrite <- chunk_bytes_app, <- zrange_app by lia. apply chunk_bytes_le; lia.
      - rewrite Z.add_0_r. apply chunk_bytes_le; lia. }
    pose proof (chunk_hashes_sha lo hi ltac:(lia) ltac:(unfold n in *; lia)) as S1. pose proof (kid_hashes_sha l kids W) as S2.
    unfold inner_node. fold o x. destruct (nx_two x).
    + eexists (opt_if (op_nsize o) _), [(_, _); (_, _)]. split.
      { rewrite <- size_data_gnode. reflexivity. }
      split; [|eexists; split; [reflexivity|exact Hb]].
      constructor; [|constructor; [|constructor]]; (split; [reflexivity|]; split; [reflexivity|]; assumption).
    + eexists (opt_if (op_nsize o) _), [(_, _)]. split.
      { rewrite <- size_data_gnode. reflexivity. }
      split; [|eexists; split; [reflexivity|exact Hb]].
      constructor; [|constructor]. split; [reflexivity|]. split; [reflexivity|]. apply Forall_app. now split.
Qed.

Lemma gnode_inj s gs s' gs' : gnode s gs = gnode s' gs' -> s = s' /\ gs = gs'.
Proof.
  unfold gnode. intros H. injection H as H1 H2. split.
  - destruct s, s'; cbn [option_map] in H1; congruence.
  - revert gs' H2. induction gs as [|[a b] gs IH]; intros [|[c d] gs'] H; cbn [map fst snd] in H; try congruence.
    injection H as -> -> H. f_equal. now apply IH.
Qed.

(* no longer than the reference node but for long integers *)
Lemma planned_len nd s gs num : planned P rnd now v nd -> te_p v <= num -> 2 <= num -> nd = gnode s gs ->
  node_len s gs <= node_len (opt_if (op_nsize o) total) (ref_gs x num) + extra nd.
Proof.
  intros Pl Hp Hn E.
  destruct (planned_shape nd Pl) as (s1 & gs1 & E1 & _ & b & Es & Hb).
  rewrite E1 in E. apply gnode_inj in E as (<- & <-). subst s1.
  pose proof (nd_len_mono (op_nsize o) b Hb) as N1.
  assert (zr : forall k (h : hashv), zlen (repeat h k) = Z.of_nat k)
    by (intros; unfold zlen; now rewrite repeat_length).
  assert (Z0 : forall A, @zlen A [] = 0) by reflexivity.
  assert (O0 : olen (Some 0) = 5) by reflexivity.
  assert (OM : forall u, olen (opt_if u MAX_CHUNK_ID) = if u then 7 else 0) by (intros []; reflexivity).
  assert (OM' : forall u, olen (opt_if u MAX_MANIFEST_ID) = if u then 7 else 0) by (intros []; reflexivity).
  assert (Z1 : forall z, zsum [z] = z) by (intros z; rewrite zsum_cons; change (zsum []) with 0; lia).
  destruct Pl as [(lo & hi & L & H & K & En)|(l & lo & hi & kids & L & F & K & Kn & Km & W & _ & En)].
  - rewrite En in E1. rewrite En. unfold leaf_node in E1. unfold extra, leaf_node. cbn [n_groups map group_extra hg_data].
    match type of E1 with mkNode (size_data _ _ ?bb) [mkHG (Some ?d) (Some ?hs)] None = _ =>
      change (mkNode (size_data P v bb) (map (fun y => mkHG (Some (fst y)) (Some (snd y))) [(d, hs)]) None
        = gnode (opt_if (op_nsize o) b) gs1) in E1 end.
    rewrite size_data_gnode in E1. apply gnode_inj in E1 as (_ & <-).
    unfold node_len at 1. cbn [map fst snd]. rewrite !Z1. unfold hg_len, gd_len at 1.
    unfold group_extra. cbn [hg_data gd_subtree_size gd_leaf_size gd_nc_id gd_start].
    rewrite zlen_chunk_hashes by lia. fold o x.
    pose proof (olen_if 1 (op_gsize o) (chunk_bytes P v (zrange lo hi)) ltac:(lia)).
    pose proof (olen_if 1 (op_gleaf o) (chunk_bytes P v (zrange lo hi)) ltac:(lia)).
    pose proof (olen_if' 3 (uses_name_id (nx_man x)) (cm_num (chunk_meta P v lo)) ltac:(lia)).
    unfold node_len, ref_gs. unfold ctx_wf in Hx. destruct (nx_two x).
    + destruct Hx as (_ & Hu). rewrite Hu in *. cbn [map fst snd]. rewrite zsum_cons, Z1. unfold hg_len, gd_len.
      cbn [gd_subtree_size gd_leaf_size gd_nc_id gd_start]. rewrite zr, OM, OM', O0, zlen_cons, Z0.
      pose proof (olen_nonneg (Some (im_nc (nx_man x)))). destruct (uses_name_id (nx_data x)); lia.
    + destruct Hx as (Hd & Hu). rewrite Hu, Hd in *. cbn [map fst snd]. rewrite Z1. unfold hg_len, gd_len.
      cbn [gd_subtree_size gd_leaf_size gd_nc_id gd_start]. rewrite zr, O0. cbn [olen opt_if] in *. lia.
  - assert (te_d v + te_m v <= num) as Hp' by (unfold te_p in Hp; lia).
    pose proof F as (e0 & He0 & _).
    rewrite En in E1. rewrite En. unfold inner_node in E1. unfold extra, inner_node. cbn [n_groups].
    fold o x in E1 |- *. unfold ref_gs. pose proof Hx as Hx'. unfold ctx_wf in Hx'. destruct (nx_two x).
    + destruct Hx' as (_ & Hu).
      match type of E1 with mkNode (size_data _ _ ?bb) [mkHG (Some ?d) (Some ?hs); mkHG (Some ?d2) (Some ?hs2)] None = _ =>
      change (mkNode (size_data P v bb) (map (fun y => mkHG (Some (fst y)) (Some (snd y))) [(d, hs); (d2, hs2)]) None
        = gnode (opt_if (op_nsize o) b) gs1) in E1 end.
      rewrite size_data_gnode in E1. apply gnode_inj in E1 as (_ & <-).
      unfold node_len. cbn [map fst snd]. rewrite !zsum_cons. change (zsum []) with 0. unfold hg_len, gd_len, group_extra.
      cbn [hg_data gd_subtree_size gd_leaf_size gd_nc_id gd_start].
      rewrite zlen_chunk_hashes, zlen_kid_hashes, !zr, OM, OM', O0, zlen_cons, Z0 by lia.
      pose proof (olen_if 1 (op_gsize o) (chunk_bytes P v (zrange lo hi)) ltac:(lia)).
      pose proof (olen_if 1 (op_gleaf o) (chunk_bytes P v (zrange lo hi)) ltac:(lia)).
      pose proof (olen_if 1 (op_gsize o) (kids_bytes P v kids) ltac:(lia)).
      pose proof (olen_if 1 (op_gleaf o) 0 ltac:(lia)).
      pose proof (olen_if' 3 (uses_name_id (nx_data x)) (cm_num (chunk_meta P v lo)) ltac:(lia)).
      pose proof (olen_if' 3 (uses_name_id (nx_man x)) (first_id kids) ltac:(lia)). rewrite Hu in *.
      destruct (uses_name_id (nx_data x)); lia.
    + destruct Hx' as (Hd & Hu).
      match type of E1 with mkNode (size_data _ _ ?bb) [mkHG (Some ?d) (Some ?hs)] None = _ =>
      change (mkNode (size_data P v bb) (map (fun y => mkHG (Some (fst y)) (Some (snd y))) [(d, hs)]) None
        = gnode (opt_if (op_nsize o) b) gs1) in E1 end.
      rewrite size_data_gnode in E1. apply gnode_inj in E1 as (_ & <-).
      unfold node_len. cbn [map fst snd]. rewrite !zsum_cons. change (zsum []) with 0. unfold hg_len, gd_len, group_extra.
      cbn [hg_data gd_subtree_size gd_leaf_size gd_nc_id gd_start].
      rewrite zlen_app, zlen_chunk_hashes, zlen_kid_hashes, !zr, O0 by lia.
      pose proof (olen_if 1 (op_gsize o) (chunk_bytes P v (zrange lo hi) + kids_bytes P v kids) ltac:(lia)).
      pose proof (olen_if 1 (op_gleaf o) (chunk_bytes P v (zrange lo hi)) ltac:(lia)). cbn [olen over]. lia.
Qed.

Lemma wf_planned l u : wf P rnd now v l u -> planned P rnd now v (mi_node (top u)).
Proof.
  destruct u as [i lo hi|i lo hi kids]; intros W; cbn [top].
  - apply wf_leaf in W as (_ & _ & L & L' & K & E). left. exists lo, hi. split; [exact L|]. now repeat split.
  - apply wf_inner in W as (l' & -> & _ & _ & L & F & K & Kn & Km & E & Id & W). right.
    exists l', lo, hi, kids. split; [exact L|]. tauto.
Qed.

(* ---------------- the packets ---------------- *)
Hypothesis HP : seal_adds_tag P.
Hypothesis HR : same_nonce_len rnd.

Lemma manifest_for_node nd k m w : manifest_for P rnd v nd k m -> man_wire m = Ok w -> exists t, node_tlv nd = Ok t.
Proof.
  unfold manifest_for. intros M W. destruct (op_enc (te_opt v)) as [|a|i].
  - subst m. unfold man_wire in W. cbn [m_ctx m_node m_tag wire_opt mnode_tlv bind] in W.
    destruct (node_tlv nd) as [t|]; [eauto|discriminate].
  - unfold aead_create_manifest, aead_encrypt in M.
    apply bind_ok in M as (r1 & E1 & M).
    apply bind_ok in E1 as (a1 & A1 & E1). apply bind_ok in E1 as (? & _ & E1). apply bind_ok in E1 as ([ct1 tg1] & X1 & E1).
    unfold encrypt_with_ctx in X1. apply bind_ok in X1 as (iv & _ & X1). apply bind_ok in X1 as (t & Et & _). eauto.
  - unfold oaep_create_manifest, oaep_encrypt in M.
    apply bind_ok in M as (r1 & E1 & M).
    apply bind_ok in E1 as (a1 & A1 & E1). apply bind_ok in E1 as (? & _ & E1). apply bind_ok in E1 as ([ct1 tg1] & X1 & E1).
    unfold encrypt_with_ctx in X1. apply bind_ok in X1 as (iv & _ & X1). apply bind_ok in X1 as (t & Et & _). eauto.
Qed.

Lemma manifest_len nd k m w num kk k' : planned P rnd now v nd -> te_p v <= num ->
  max_pointers P rnd now o x total kk = (Ok num, k') -> manifest_for P rnd v nd k m -> man_wire m = Ok w ->
  21 + zlen w <= op_max o + extra nd.
Proof.
  intros Pl Hp M Hm Hw. apply max_pointers_inv in M as (_ & k1 & _ & p2 & b2 & q & _ & _ & _ & _ & _ & Hn & R2 & B2 & L2).
  apply ref_packet_inv in R2 as (m2 & w2 & t2 & b2' & M2 & W2 & T2 & B2' & L2' & _); [|assumption|lia].
  assert (b2' = b2) as -> by congruence.
  destruct (manifest_for_node nd k m w Hm Hw) as (t & Et).
  pose proof (man_len_diff P rnd HP HR v _ _ _ _ _ _ _ _ _ _ Hm M2 Hw W2 Et T2) as D.
  destruct (planned_shape nd Pl) as (s & gs & E & Fp & _).
  pose proof (planned_len nd s gs num Pl Hp Hn E) as L. rewrite E in Et.
  rewrite (gnode_len _ _ _ Fp Et), (gnode_len _ _ _ (ref_gs_plain x num) T2) in D. lia.
Qed.

Lemma tree_packet_len l u num kk k' : wf P rnd now v l u -> te_p v <= num ->
  max_pointers P rnd now o x total kk = (Ok num, k') ->
  pkt_len (mi_pkt (top u)) <= op_max o + name_len (mi_name (top u)) + exp_len (op_mexp o) + extra (mi_node (top u)).
Proof.
  intros W Hp M. pose proof (wf_planned l u W) as Pl. pose proof (wf_made _ _ _ _ _ _ W) as (_ & F & _).
  apply fac_node_carries in F as (m & w & Hm & Hw & _ & Hb & Ha & (Hv & _) & b & B).
  pose proof (manifest_len _ _ _ _ _ _ _ Pl Hp M Hm Hw) as L.
  pose proof (body_len _ _ _ _ _ _ Hb Ha Hv B) as Lb. unfold pkt_len. rewrite B. fold o in Lb. lia.
Qed.
End Node.
