(* From the build of a manifest tree to what a traversal of it sees. *)
From Coq Require Import ZArith List Bool Lia ZifyBool.
From Verif Require Import Py Tlv Float Core TlvProofs CoreProofs Flic FlicProofs Crypto CryptoProofs
  PropsCrypto Optimizer OptimizerProofs Tree TreeSpec TreeProofs TreeFacts PropsOptimizer PropsTree ChunkProofs SizeProofs
  PropsChunk BuildProofs Store StoreProofs Traversal TraversalSpec TraversalProofs EndSpec.
Import ListNotations.
Open Scope Z_scope.
Opaque tlv_make tlv_wire tlv_deserialize.

(* ---------------- the root manifest ---------------- *)

Definition root_node {P} (o : opts P) (x : nctx) (total : Z) (h : hashv) : node :=
  mkNode (Some (mkND (keep (op_nsize o) (Some total)) None None [] (nctx_defs x)))
    [mkHG (Some (mkGD (keep (op_gsize o) (Some total)) None None None (Some (im_nc (nx_man x)))
             (if uses_name_id (nx_man x) then Some 0 else None))) (Some [h])] None.
Definition root_manifest (P : prims) (rnd : nat -> bytes) (o : opts P) (nd : node) (k : nat) (m : manifest) : Prop :=
  match op_enc o with
  | ENone => m = mkMan None (MNode nd) None
  | EAead a => aead_create_manifest P a (rnd k) nd = Ok m
  | EOaep i => oaep_create_manifest P i true (rnd k) nd = Ok m
  end.

Lemma root_inv P rnd now (o : opts P) x total top k root k2 :
  root_packet P rnd now o x total top k = (Ok root, k2) ->
  exists h m w, packet_hash (pr_sha P) top = Ok h /\ root_manifest P rnd o (root_node o x total h) k m /\
    man_wire m = Ok w /\ zlen w <= op_max o /\
    let c := mkCO (op_name o) (Some PT_MANIFEST) (Some w) (op_rexp o) None in
    match op_signer o with
    | None => create_content_object c = Ok root
    | Some s => sign_content P s now c = Ok root
    end /\ p_body root = BCO c /\ exists hr, packet_hash (pr_sha P) root = Ok hr.
Proof.
  intros H. unfold root_packet in H. unfold sbind at 1, lift in H.
  destruct (packet_hash (pr_sha P) top) as [h|] eqn:Eh; [|discriminate]. exists h.
  unfold fac_packet in H. unfold sbind at 1 in H.
  destruct (fac_build _ _ _ _ _ _ _ _ _ _ _ _) as [[m|] k1] eqn:Eb; [|discriminate]. exists m.
  assert (root_manifest P rnd o (root_node o x total h) k m /\ exists w, man_wire m = Ok w /\ zlen w <= op_max o) as (Hm & w & Ew & Lw).
  { unfold fac_build, fac_from_ptrs, fac_from_groups in Eb. replace (keep (op_gleaf o) (@None Z)) with (@None Z) in Eb by (destruct (op_gleaf o); reflexivity). cbn [is_none negb orb keep] in Eb.
    rewrite !orb_true_r in Eb. cbn [orb] in Eb. unfold sbind, lift in Eb.
    destruct (hg_tlv _) as [tg|]; [|discriminate]. destruct (node_tlv _) as [tn|]; [|discriminate].
    change (mkNode _ _ _) with (root_node o x total h) in Eb.
    unfold fac_from_node, sbind, lift, sget, smod, sret in Eb. unfold root_manifest, aead_create_manifest, oaep_create_manifest.
    assert (X : forall (m' : manifest) (k' : nat), match man_wire m' with
       | Ok a => match guard (zlen a <=? op_max o) ValueError with Ok _ => (Ok m', k') | Err e => (Err e, k') end
       | Err e => (Err e, k') end = (Ok m, k1) -> m' = m /\ exists w, man_wire m = Ok w /\ zlen w <= op_max o).
    { intros m' k'. destruct (man_wire m') as [w|] eqn:Ew; [|discriminate].
      destruct (guard _ _) eqn:G; [|discriminate]. intros [= -> _]. split; [reflexivity|]. exists w. split; [exact Ew|].
      apply guard_ok in G. lia. }
    destruct (op_enc o) as [|a|i].
    - destruct (man_wire (mkMan None (MNode _) None)) as [a|] eqn:E1; [|discriminate]. 
      destruct (X (mkMan None (MNode (root_node o x total h)) None) k Eb) as (<- & Y). auto.
    - destruct (r <- aead_encrypt P a (rnd k) (root_node o x total h) ;; manifest_of r) as [m'|] eqn:E1; [|discriminate].
      destruct (X _ _ Eb) as (<- & Y). auto.
    - destruct (r <- oaep_encrypt P i true (rnd k) (root_node o x total h) ;; manifest_of r) as [m'|] eqn:E1; [|discriminate].
      destruct (X _ _ Eb) as (<- & Y). auto. }
  exists w. split; [reflexivity|]. split; [exact Hm|]. split; [exact Ew|]. split; [exact Lw|]. cbv zeta.
  unfold sbind, lift, sret in H. destruct (man_content m (op_name o) (op_rexp o)) as [c|] eqn:Ec; [|discriminate].
  unfold man_content in Ec. rewrite Ew in Ec. cbn [bind] in Ec. apply bind_ok in Ec as (? & _ & Ec). apply bind_ok in Ec as (? & _ & Ec).
  apply Ok_inj in Ec. subst c. destruct (op_signer o) as [s|]; cbn [is_none negb] in H.
  - destruct (sign_content P s now _) as [p|] eqn:Ep; [|discriminate]. destruct (packet_hash (pr_sha P) p) as [hr|] eqn:Er; [|discriminate].
    injection H as -> _. split; [reflexivity|]. split; [|eauto].
    apply sign_content_ok in Ep. destruct Ep as (? & ? & ? & ? & _ & _ & _ & _ & Hb & _). exact Hb.
  - destruct (create_content_object _) as [p|] eqn:Ep; [|discriminate]. destruct (packet_hash (pr_sha P) p) as [hr|] eqn:Er; [|discriminate].
    injection H as -> _. split; [reflexivity|]. split; [|eauto].
    apply create_co_ok in Ep as (? & _ & -> & _). reflexivity.
Qed.

(* ---------------- chunks ---------------- *)

Lemma emits_at P (o : opts P) i {z} l pkts meta j : emits P o i z l pkts meta -> 0 <= j < zlen meta ->
  exists b p, nth_error l (Z.to_nat j) = Some b /\ nth_error pkts (Z.to_nat j) = Some p /\
    data_object P o i (z + j) (Nat.eqb (S (Z.to_nat j)) (length l)) b p (nth (Z.to_nat j) meta no_chunk).
Proof.
  intros E Hj. apply emits_nth in E as (L1 & L2 & E). unfold zlen in Hj.
  destruct (nth_error pkts (Z.to_nat j)) as [p|] eqn:Ep; [|apply nth_error_None in Ep; lia].
  destruct (nth_error l (Z.to_nat j)) as [b|] eqn:El; [|apply nth_error_None in El; lia].
  exists b, p. split; [reflexivity|]. split; [reflexivity|].
  specialize (E (Z.to_nat j) b p (nth (Z.to_nat j) meta no_chunk)). rewrite Z2Nat.id in E by lia.
  apply E. split; [exact El|]. split; [exact Ep|]. apply nth_error_nth'. lia.
Qed.

(* ---------------- order of the output ---------------- *)

Lemma app_cons_split {A} (l1 l2 pre post : list A) a : l1 ++ l2 = pre ++ a :: post ->
  (exists q, l1 = pre ++ a :: q /\ post = q ++ l2) \/ (exists q, pre = l1 ++ q /\ l2 = q ++ a :: post).
Proof.
  revert pre. induction l1 as [|b l1 IH]; intros pre E; cbn [app] in E.
  - right. exists pre. auto.
  - destruct pre as [|c pre]; cbn [app] in E; injection E as -> E.
    + left. exists l1. auto.
    + apply IH in E as [(q & -> & ->)|(q & -> & ->)]; [left|right]; exists q; auto.
Qed.

Section Order.
Context (P : prims) (rnd : nat -> bytes) (now : fl) (o : opts P).

Lemma carries_holds (v : tenv P) nd k nm p : te_opt v = o -> carries P rnd v nd k nm p -> holds_node o p nd.
Proof.
  intros <- (m & w & Hm & Hw & _ & Hb & _). eexists _, m, w. split; [exact Hb|]. do 2 (split; [reflexivity|]).
  split; [exact Hw|]. unfold manifest_for in Hm. unfold manifest_of_node. destruct (op_enc (te_opt v)); eauto.
Qed.
Lemma emits_data i {z} l pkts meta : emits P o i z l pkts meta -> Forall is_data_object pkts.
Proof.
  clear rnd now. intros E. apply Forall_forall. intros p Hp. apply In_nth_error in Hp as [j Hj].
  assert (L : (j < length pkts)%nat) by (apply nth_error_Some; congruence).
  pose proof (emits_nth _ _ _ _ _ _ _ E) as (L1 & L2 & _).
  destruct (emits_at P o i l pkts meta (Z.of_nat j) E) as (b & q & _ & Eq & D); [unfold zlen; lia|].
  rewrite Nat2Z.id in Eq. assert (q = p) as -> by congruence. destruct D as (nm & w & h & _ & D & _).
  eexists. split; [exact D|reflexivity].
Qed.
Lemma emits_stored x i {z} l pkts meta j r : emits P o i z l pkts meta -> 0 <= j < zlen meta ->
  stored P pkts (cm_hash (chunk_meta P (env_of P o x meta r) j)).
Proof.
  intros E Hj. destruct (emits_at P o i l pkts meta j E Hj) as (b & p & _ & Ep & D). exists p.
  split; [eapply nth_error_In; exact Ep|]. destruct D as (nm & w & h & _ & _ & _ & _ & _ & _ & _ & _ & _ & Hh & Hm).
  unfold chunk_meta, env_of; cbn [te_meta]. rewrite Hm. exact Hh.
Qed.
Lemma data_no_dangling pkts : Forall is_data_object pkts -> no_dangling o pkts.
Proof.
  intros F pre p post ->. left. rewrite Forall_forall in F. apply F. apply in_elt.
Qed.
Lemma wf_chunk_targets v l u j : wf P rnd now v l u -> In (TChunk j) (targets u) -> 0 <= j < zlen (te_meta v).
Proof.
  destruct u as [i lo hi|i lo hi kids]; cbn [targets]; intros W H.
  - apply wf_leaf in W as (_ & _ & L & L' & _). apply in_map_iff in H as (z & E & H). injection E as ->. apply zrange_in in H. lia.
  - apply wf_inner in W as (l' & _ & _ & _ & L & (e & L' & _) & _). apply in_app_iff in H as [H|H].
    + apply in_map_iff in H as (z & E & H). injection E as ->. apply zrange_in in H. lia.
    + apply in_map_iff in H as (z & E & H). discriminate.
Qed.
Lemma tree_no_dangling x i {z} l pkts meta r ts : ctx_wf x -> emits P o i z l pkts meta ->
  Forall (fun t => exists lv, wf P rnd now (env_of P o x meta r) lv t) ts ->
  no_dangling o (pkts ++ map mi_pkt (forest_infos ts)).
Proof.
  intros Hx E W. set (v := env_of P o x meta r) in *. intros pre p post Eq.
  apply app_cons_split in Eq as [(q & Eq & _)|(q & -> & Eq)].
  { left. pose proof (emits_data _ _ _ _ E) as F. rewrite Forall_forall in F. apply F. rewrite Eq. apply in_elt. }
  right. rewrite <- forest_order_infos, map_map in Eq. apply map_eq_app in Eq as (us1 & us2 & Eu & <- & E2).
  apply map_eq_cons in E2 as (u & us3 & -> & <- & _).
  assert (Hu : In u (forest_order ts)) by (rewrite Eu; apply in_elt).
  assert (exists lv, wf P rnd now v lv u) as [lv Wu].
  { apply in_forest_order in Hu as (t & Ht & Hu). rewrite Forall_forall in W. destruct (W t Ht) as [lv Wt].
    destruct (wf_sub P rnd now v t lv Wt u (order_subtrees _ _ Hu)) as (lv' & _ & W'). eauto. }
  destruct (wf_faithful P rnd now v lv u Hx Wu) as (Hc & _ & _ & Hp). exists (mi_node (top u)).
  split; [eapply carries_holds; [|exact Hc]; reflexivity|]. rewrite Hp. intros h Hh. apply in_map_iff in Hh as (t & <- & Ht).
  destruct t as [j|k]; cbn [tg_hash].
  - destruct (emits_stored x i l pkts meta j r E) as (q' & Q1 & Q2); [apply (wf_chunk_targets v lv u j Wu Ht)|].
    exists q'. split; [apply in_app_iff; left; exact Q1|exact Q2].
  - pose proof (kids_first_forest ts) as K.
    assert (In k us1) as Hk.
    { eapply K; [apply Forall_forall; intros t _; apply order_kids_first|exact Eu|exact Ht]. }
    exists (mi_pkt (top k)). split.
    + apply in_app_iff; right. apply in_map_iff. exists k. auto.
    + assert (In k (forest_order ts)) as Hk' by (rewrite Eu; apply in_app_iff; auto).
      apply in_forest_order in Hk' as (t & Ht' & Hk'). rewrite Forall_forall in W. destruct (W t Ht') as [lv' Wt].
      destruct (wf_sub P rnd now v t lv' Wt k (order_subtrees _ _ Hk')) as (lv2 & _ & W2).
      apply (wf_made _ _ _ _ _ _ W2).
Qed.
Lemma no_dangling_snoc ps p nd : no_dangling o ps -> holds_node o p nd ->
  (forall h, In h (node_ptrs nd) -> stored P ps h) -> no_dangling o (ps ++ [p]).
Proof.
  intros N H S pre q post E. apply app_cons_split in E as [(q' & -> & _)|(q' & -> & E)].
  - eapply N. reflexivity.
  - destruct q' as [|? [|]]; try discriminate. injection E as <- _. rewrite app_nil_r. right. eauto.
Qed.
End Order.

