(* Proofs about the tree builder. *)
From Coq Require Import ZArith List Bool Lia ZifyBool Permutation.
From Verif Require Import Py Tlv Float Core TlvProofs CoreProofs Flic FlicProofs Crypto
  CryptoProofs Optimizer OptimizerProofs Tree TreeSpec.
Import ListNotations.
Open Scope Z_scope.
Opaque tlv_make tlv_wire tlv_deserialize.

(* ---------------- state-exception monad ---------------- *)

Definition run {S A} (m : st S A) (s : S) (Q : A -> S -> Prop) (E : exn -> S -> Prop) : Prop :=
  match m s with
  | (Ok a, s') => Q a s'
  | (Err e, s') => E e s'
  end.

Section Run.
Context {S : Type}.
Lemma run_bind {A B} (m : st S A) (k : A -> st S B) s (Q : B -> S -> Prop) (E : exn -> S -> Prop) :
  run m s (fun a s' => run (k a) s' Q E) E -> run (sbind m k) s Q E.
Proof. unfold run, sbind. destruct (m s) as [[a|e] s']; auto. Qed.
Lemma run_lift {A} (r : res A) s (Q : A -> S -> Prop) (E : exn -> S -> Prop) :
  (forall a, r = Ok a -> Q a s) -> (forall e, r = Err e -> E e s) -> run (lift r) s Q E.
Proof. unfold run, lift. destruct r; auto. Qed.
Lemma run_lift_ok {A} (a : A) r s (Q : A -> S -> Prop) (E : exn -> S -> Prop) :
  r = Ok a -> Q a s -> run (lift r) s Q E.
Proof. intros ->. exact (fun H => H). Qed.
Lemma run_get s (Q : S -> S -> Prop) (E : exn -> S -> Prop) : Q s s -> run sget s Q E.
Proof. exact (fun H => H). Qed.
Lemma run_mod f s (Q : unit -> S -> Prop) (E : exn -> S -> Prop) :
  Q tt (f s) -> run (smod f) s Q E.
Proof. exact (fun H => H). Qed.
Lemma run_ret {A} (a : A) s (Q : A -> S -> Prop) (E : exn -> S -> Prop) :
  Q a s -> run (sret a) s Q E.
Proof. exact (fun H => H). Qed.
Lemma run_weaken {A} (m : st S A) s (Q Q' : A -> S -> Prop) (E E' : exn -> S -> Prop) :
  run m s Q E -> (forall a s', Q a s' -> Q' a s') -> (forall e s', E e s' -> E' e s') ->
  run m s Q' E'.
Proof. unfold run. destruct (m s) as [[a|e] s']; auto. Qed.
Lemma run_guard (c : bool) x s (Q : unit -> S -> Prop) (E : exn -> S -> Prop) :
  c = true -> Q tt s -> run (lift (guard c x)) s Q E.
Proof. intros ->. exact (fun H => H). Qed.
End Run.

(* ---------------- lists ---------------- *)

Lemma zsum_cons x a : zsum (x :: a) = x + zsum a.
Proof. reflexivity. Qed.
Lemma zsum_app a b : zsum (a ++ b) = zsum a + zsum b.
Proof.
  induction a as [|x a IH]; cbn [app]; [reflexivity|]. rewrite !zsum_cons, IH. lia.
Qed.
Lemma zlen_map {A B} (f : A -> B) l : zlen (map f l) = zlen l.
Proof. unfold zlen. now rewrite map_length. Qed.
Lemma zlen_flat_map {A B} (f : A -> list B) l : zlen (flat_map f l) = zsum (map (fun a => zlen (f a)) l).
Proof.
  induction l as [|a l IH]; [reflexivity|]. cbn [flat_map map]. rewrite zlen_app, zsum_cons, IH. lia.
Qed.
Lemma flat_map_nil {A B} (f : A -> list B) l : (forall a, In a l -> f a = []) -> flat_map f l = [].
Proof.
  induction l as [|a l IH]; intros H; [reflexivity|]. cbn [flat_map].
  rewrite H by now left. rewrite IH; [reflexivity|]. intros; apply H; now right.
Qed.
Lemma zrange_one a : zrange a (a + 1) = [a].
Proof. rewrite zrange_cons by lia. now rewrite zrange_nil by lia. Qed.
Lemma zrange_nil_inv a b : zrange a b = [] -> b <= a.
Proof.
  intros H. destruct (Z.le_gt_cases b a) as [L|G]; [assumption|].
  rewrite zrange_cons in H by lia. discriminate.
Qed.
Lemma zrange_len a b : zlen (zrange a b) = Z.max 0 (b - a).
Proof.
  destruct (Z.le_gt_cases a b) as [L|G]; [rewrite zrange_zlen; lia|].
  rewrite zrange_nil by lia. rewrite zlen_nil. lia.
Qed.
Lemma capacity_pos d m l : 1 <= d -> 0 <= m -> 1 <= capacity d m l.
Proof. intros Hd Hm. induction l as [|l IH]; cbn [capacity]; nia. Qed.
Lemma capacity_ge d m l : 1 <= d -> 1 <= m -> d + m <= capacity d m l.
Proof. intros Hd Hm. induction l as [|l IH]; cbn [capacity]; [lia|]. nia. Qed.
Lemma capacity_step d m l : 1 <= d -> 1 <= m -> capacity d m l < capacity d m (S l).
Proof.
  intros Hd Hm. cbn [capacity]. pose proof (capacity_pos d m l Hd ltac:(lia)). nia.
Qed.
Lemma capacity_mono d m a b : 1 <= d -> 1 <= m -> (a <= b)%nat -> capacity d m a <= capacity d m b.
Proof.
  intros Hd Hm H. induction H as [|b H IH]; [lia|]. pose proof (capacity_step d m b Hd Hm). lia.
Qed.

Lemma forest_infos_app a b : forest_infos (a ++ b) = forest_infos b ++ forest_infos a.
Proof. unfold forest_infos. now rewrite map_app, rev_app_distr, concat_app. Qed.
Lemma forest_infos_one t : forest_infos [t] = infos t.
Proof. unfold forest_infos. cbn [map rev app concat]. now rewrite app_nil_r. Qed.
Lemma infos_inner i lo hi kids : infos (Inner i lo hi kids) = forest_infos kids ++ [i].
Proof. reflexivity. Qed.

Lemma seq_from a k : seq a k = map (fun j => (a + j)%nat) (seq 0 k).
Proof.
  induction a as [|a IH]; cbn [plus]; [now rewrite map_id|].
  rewrite <- seq_shift, IH, map_map. reflexivity.
Qed.

Lemma full_S_pow m k : full m (S k) = full m k + m ^ Z.of_nat k.
Proof.
  induction k as [|k IH]; [cbn [full]; change (m ^ Z.of_nat 0) with 1; lia|].
  change (full m (S (S k))) with (1 + m * full m (S k)). rewrite IH at 1.
  change (full m (S k)) with (1 + m * full m k).
  replace (Z.of_nat (S k)) with (1 + Z.of_nat k) by lia. rewrite Z.pow_add_r, Z.pow_1_r by lia. lia.
Qed.

(* ---------------- id factory ---------------- *)

Lemma set_nth_map (f : Z -> Z) a n i v : (i < n)%nat ->
  set_nth i v (map f (zseq a n)) = map (fun j => if j =? a + Z.of_nat i then v else f j) (zseq a n).
Proof.
  revert a i. induction n as [|n IH]; intros a i H; [lia|].
  destruct i as [|i]; cbn [zseq map set_nth].
  - rewrite Z.add_0_r, Z.eqb_refl. f_equal. apply map_ext_in. intros x Hx. apply zseq_in in Hx.
    destruct (x =? a) eqn:E; [lia|reflexivity].
  - rewrite IH by lia. destruct (a =? a + Z.of_nat (S i)) eqn:E; [lia|]. f_equal.
    apply map_ext_in. intros x Hx. replace (a + 1 + Z.of_nat i) with (a + Z.of_nat (S i)) by lia. reflexivity.
Qed.

Definition ids_rep (h : Z) (ids : list Z) (g : Z -> Z) : Prop :=
  ids = map (fun j => g (h - j)) (zrange 0 (h + 1)).
Definition upd (g : Z -> Z) (l : Z) : Z -> Z := fun i => if i =? l then g l - 1 else g i.

Lemma next_id_spec h ids g l : ids_rep h ids g -> 0 <= l <= h -> 0 <= g l ->
  exists ids', next_id ids (h - l) = Ok (g l, ids') /\ ids_rep h ids' (upd g l).
Proof.
  intros R L G. unfold next_id. rewrite R. unfold zrange.
  rewrite nth_error_map.
  rewrite (nth_error_nth' _ 0) by (rewrite zseq_length; lia).
  rewrite zseq_nth by lia. cbn [option_map].
  replace (h - (0 + Z.of_nat (Z.to_nat (h - l)))) with l by lia.
  replace (0 <=? g l) with true by lia. cbn [guard bind]. eexists; split; [reflexivity|].
  unfold ids_rep, zrange. rewrite set_nth_map by lia. apply map_ext_in.
  intros x Hx. apply zseq_in in Hx. unfold upd.
  destruct (x =? 0 + Z.of_nat (Z.to_nat (h - l))) eqn:E1, (h - x =? l) eqn:E2; lia.
Qed.

(* ---------------- the builder ---------------- *)

Section Builder.
Context (P : prims).
Variable rnd : nat -> bytes.
Variable now : fl.
Variable v : tenv P.
Let h := te_h v.
Let d := te_d v.
Let m := te_m v.
Let n := zlen (te_meta v).
Let o := te_opt v.
Let x := te_ctx v.

(* the exceptions that do not come from the tree logic: a node, hash group,
   name or packet that cannot be encoded *)
Definition tree_node (nd : node) : Prop :=
  (exists b, n_data nd = size_data P v b) /\ n_pad nd = None.
Definition enc_fail (e : exn) : Prop :=
  (exists nd, planned P rnd now v nd /\ node_tlv nd = Err e) \/
  (exists nd g, planned P rnd now v nd /\ In g (n_groups nd) /\ hg_tlv g = Err e) \/
  (exists id, 0 <= id /\ impl_name (nx_man x) (Some id) = Err e) \/
  (exists nd id nm k, planned P rnd now v nd /\ 0 <= id /\ impl_name (nx_man x) (Some id) = Ok nm /\
     fst (fac_node_packet P rnd now o nd nm k) = Err e).
Lemma planned_tree_node nd : planned P rnd now v nd -> tree_node nd.
Proof.
  intros [(lo & hi & _ & _ & _ & ->)|(l & lo & hi & kids & _ & _ & _ & _ & _ & _ & _ & ->)];
    (split; [|reflexivity]); eexists; reflexivity.
Qed.

(* nonces drawn per manifest *)
Definition nstep : nat := match op_enc o with ENone => 0 | _ => 1 end.

Lemma fac_node_nonce nd nm k p k' :
  fac_node_packet P rnd now o nd nm k = (Ok p, k') -> (k' = k + nstep)%nat.
Proof.
  unfold fac_node_packet, fac_packet, fac_build, fac_from_node, nstep.
  unfold sbind, lift, sget, smod, sret.
  destruct (op_enc o);
    [ destruct (man_wire _) eqn:E; cbn; [|discriminate]
    | destruct (aead_encrypt _ _ _ _); cbn; [|discriminate]; destruct (manifest_of _); cbn; [|discriminate]
    | destruct (oaep_encrypt _ _ _ _ _); cbn; [|discriminate]; destruct (manifest_of _); cbn; [|discriminate]].
  all: repeat (match goal with
       | |- context [match ?r with Ok _ => _ | Err _ => _ end] => destruct r; cbn
       | |- context [match (?r, _) with _ => _ end] => destruct r; cbn
       | |- context [let (_, _) := (match ?r with Ok _ => _ | Err _ => _ end) in _] => destruct r; cbn
       end; try discriminate).
  all: intros [= _ <-]; lia.
Qed.
Lemma fac_node_grows nd nm k r k' : fac_node_packet P rnd now o nd nm k = (r, k') -> (k <= k')%nat.
Proof.
  unfold fac_node_packet, fac_packet, fac_build, fac_from_node.
  unfold sbind, lift, sget, smod, sret.
  destruct (op_enc o);
    [ destruct (man_wire _) eqn:E; cbn
    | destruct (aead_encrypt _ _ _ _); cbn; [destruct (manifest_of _); cbn|]
    | destruct (oaep_encrypt _ _ _ _ _); cbn; [destruct (manifest_of _); cbn|]].
  all: repeat match goal with
       | |- context [match ?r with Ok _ => _ | Err _ => _ end] => destruct r; cbn
       | |- context [match (?r, _) with _ => _ end] => destruct r; cbn
       | |- context [let (_, _) := (match ?r with Ok _ => _ | Err _ => _ end) in _] => destruct r; cbn
       end.
  all: intros [= _ <-]; lia.
Qed.

Lemma fac_has_hash nd nm k p k' :
  fac_node_packet P rnd now o nd nm k = (Ok p, k') ->
  packet_hash (pr_sha P) p = Ok (pkt_hash P p).
Proof.
  unfold fac_node_packet, fac_packet, sbind, lift, sret.
  destruct (fac_build _ _ _ _ _ _ _ _ _ _ _ k) as [[a|a] k1]; [|discriminate].
  destruct (man_content a nm (op_mexp o)) as [c|c]; [|discriminate].
  destruct (create_content_object c) as [q|q]; [|discriminate].
  destruct (packet_hash (pr_sha P) q) as [hh|hh] eqn:E; [|discriminate].
  intros [= -> _]. unfold pkt_hash. now rewrite E.
Qed.

Lemma wf_leaf l i lo hi : wf P rnd now v l (Leaf i lo hi) <->
  mi_level i = Z.of_nat l /\ made P rnd now v i /\ 0 <= lo < hi /\ hi <= n /\ hi - lo <= te_p v /\
  mi_node i = leaf_node P v lo hi.
Proof. destruct l; reflexivity. Qed.
Lemma wf_level l t : wf P rnd now v l t -> mi_level (top t) = Z.of_nat l.
Proof. destruct t, l; cbn [wf top]; intros H; try contradiction; apply H. Qed.
Lemma wf_made l t : wf P rnd now v l t -> made P rnd now v (top t).
Proof. destruct t, l; cbn [wf top]; intros H; try contradiction; apply H. Qed.
Lemma packed_leaf l i lo hi : packed P v l (Leaf i lo hi).
Proof. destruct l; exact I. Qed.

Record eff (s s' : bst) (g g' : Z -> Z) (ts : list tree) : Prop :=
  { ef_rep : ids_rep h (b_ids s') g';
    ef_le : forall i, g' i <= g i;
    ef_ids : forall i, flat_map (ids_at i) ts = zrange (g' i + 1) (g i + 1);
    ef_mcnt : b_mcnt s' = b_mcnt s + zlen (forest_infos ts);
    ef_leafs : b_leafs s' = b_leafs s + zsum (map leaves ts);
    ef_ints : b_ints s' = b_ints s + zsum (map inners ts);
    ef_out : b_out s' = b_out s ++ map mi_pkt (forest_infos ts);
    ef_nonces : map mi_nonce (forest_infos ts)
      = map (fun j => b_nonce s + j * nstep)%nat (seq 0 (length (forest_infos ts)));
    ef_nonce : (b_nonce s' = b_nonce s + length (forest_infos ts) * nstep)%nat }.

Lemma seq_shift_from a b c : seq (a + b) c = map (fun j => a + j)%nat (seq b c).
Proof. revert b. induction c as [|c IH]; intros b; [reflexivity|]. cbn [seq map]. f_equal. rewrite <- IH. f_equal. lia. Qed.
(* the trees were sealed with consecutive draws from the k-th on, all of them
   before the k'-th *)
Definition drawn (k : nat) (ts : list tree) (k' : nat) : Prop :=
  map mi_nonce (forest_infos ts) = map (fun j => k + j * nstep)%nat (seq 0 (length (forest_infos ts))) /\
  (k + length (forest_infos ts) * nstep <= k')%nat.

(* what is left when an exception is raised: some finished trees *)
Definition bad (s : bst) (e : exn) (s' : bst) : Prop :=
  enc_fail e /\
  exists ts, Forall (fun t => exists l, wf P rnd now v l t) ts /\
    b_out s' = b_out s ++ map mi_pkt (forest_infos ts) /\ drawn (b_nonce s) ts (b_nonce s').

Lemma bad_same s e s' : enc_fail e -> b_out s' = b_out s -> (b_nonce s <= b_nonce s')%nat -> bad s e s'.
Proof.
  intros F H K. split; [assumption|]. exists []. cbn [forest_infos map]. split; [constructor|]. split; [now rewrite app_nil_r|].
  split; [reflexivity|]. cbn. lia.
Qed.
Lemma bad_now s e : enc_fail e -> bad s e s.
Proof. intros H. apply bad_same; [assumption|reflexivity|lia]. Qed.
Lemma bad_out s s1 e s' : b_out s1 = b_out s -> b_nonce s1 = b_nonce s -> bad s1 e s' -> bad s e s'.
Proof. intros H K [F [ts [W [O D]]]]. split; [assumption|]. exists ts. now rewrite <- H, <- K. Qed.
Lemma bad_after s s1 g g1 ts e s' : eff s s1 g g1 ts ->
  Forall (fun t => exists l, wf P rnd now v l t) ts -> bad s1 e s' -> bad s e s'.
Proof.
  intros H W [F [ts' [W' [O [D1 D2]]]]]. split; [assumption|]. exists (ts' ++ ts). split; [|split; [|split]].
  - apply Forall_app. now split.
  - rewrite forest_infos_app, map_app, app_assoc, <- (ef_out _ _ _ _ _ H). assumption.
  - rewrite forest_infos_app, map_app, app_length, (ef_nonces _ _ _ _ _ H), D1, (ef_nonce _ _ _ _ _ H), seq_app, map_app. f_equal.
    cbn [plus]. replace (seq (length (forest_infos ts)) (length (forest_infos ts'))) with (seq (length (forest_infos ts) + 0) (length (forest_infos ts'))) by now rewrite Nat.add_0_r.
    rewrite seq_shift_from, map_map. apply map_ext. intros j. lia.
  - rewrite forest_infos_app, app_length. rewrite (ef_nonce _ _ _ _ _ H) in D2. lia.
Qed.

Lemma eff_nil s g : ids_rep h (b_ids s) g -> eff s s g g [].
Proof.
  intros R. split; cbn; try lia; try assumption; try reflexivity.
  - intros i. now rewrite zrange_nil by lia.
  - now rewrite app_nil_r.
Qed.

(* later trees stand to the left *)
Lemma eff_app s s1 s2 g g1 g2 a b :
  eff s s1 g g1 a -> eff s1 s2 g1 g2 b -> eff s s2 g g2 (b ++ a).
Proof.
  intros A B. split.
  - apply B.
  - intros i. pose proof (ef_le _ _ _ _ _ A i). pose proof (ef_le _ _ _ _ _ B i). lia.
  - intros i. rewrite flat_map_app, (ef_ids _ _ _ _ _ A), (ef_ids _ _ _ _ _ B).
    symmetry. apply zrange_app.
    pose proof (ef_le _ _ _ _ _ A i). pose proof (ef_le _ _ _ _ _ B i). lia.
  - rewrite (ef_mcnt _ _ _ _ _ B), (ef_mcnt _ _ _ _ _ A), forest_infos_app, zlen_app. lia.
  - rewrite (ef_leafs _ _ _ _ _ B), (ef_leafs _ _ _ _ _ A), map_app, zsum_app. lia.
  - rewrite (ef_ints _ _ _ _ _ B), (ef_ints _ _ _ _ _ A), map_app, zsum_app. lia.
  - rewrite (ef_out _ _ _ _ _ B), (ef_out _ _ _ _ _ A), forest_infos_app, map_app. now rewrite app_assoc.
  - rewrite forest_infos_app, map_app, (ef_nonces _ _ _ _ _ A), (ef_nonces _ _ _ _ _ B), (ef_nonce _ _ _ _ _ A).
    rewrite app_length, seq_app, map_app. f_equal. cbn [plus].
    rewrite (seq_from (length _)), map_map. apply map_ext. intros j. lia.
  - rewrite (ef_nonce _ _ _ _ _ B), (ef_nonce _ _ _ _ _ A), forest_infos_app, app_length. lia.
Qed.
(* one more manifest on top of, or beside, finished trees *)
Lemma eff_top s s2 s3 g g2 kids t (i : minfo) (l : Z) :
  eff s s2 g g2 kids ->
  top t = i -> mi_level i = l -> mi_id i = g2 l -> mi_nonce i = b_nonce s2 ->
  (forall j, flat_map (ids_at j) kids = [] \/ j <> l) ->
  (forall j, ids_at j t = (if mi_level i =? j then [mi_id i] else []) ++ flat_map (ids_at j) kids) ->
  infos t = forest_infos kids ++ [i] ->
  ids_rep h (b_ids s3) (upd g2 l) ->
  b_mcnt s3 = b_mcnt s2 + 1 ->
  b_leafs s3 = b_leafs s2 + (leaves t - zsum (map leaves kids)) ->
  b_ints s3 = b_ints s2 + (inners t - zsum (map inners kids)) ->
  b_out s3 = b_out s2 ++ [mi_pkt i] ->
  b_nonce s3 = (b_nonce s2 + nstep)%nat ->
  eff s s3 g (upd g2 l) [t].
Proof.
  intros E Ht Hl Hid Hk Hno Hids Hinf R M Lf In O K.
  assert (G : g2 l = g l).
  { destruct (Hno l) as [N|N]; [|contradiction]. rewrite (ef_ids _ _ _ _ _ E) in N.
    apply zrange_nil_inv in N. pose proof (ef_le _ _ _ _ _ E l). lia. }
  assert (F : forest_infos [t] = forest_infos kids ++ [i]) by now rewrite forest_infos_one.
  split.
  - assumption.
  - intros j. unfold upd. pose proof (ef_le _ _ _ _ _ E j). destruct (j =? l) eqn:J; [|lia].
    assert (j = l) by lia. subst j. lia.
  - intros j. cbn [flat_map]. rewrite app_nil_r, Hids, Hl, Hid. unfold upd.
    rewrite (Z.eqb_sym j l). destruct (l =? j) eqn:J.
    + assert (j = l) by lia. subst j. destruct (Hno l) as [N|N]; [|contradiction]. rewrite N.
      rewrite G. replace (g l - 1 + 1) with (g l) by lia. now rewrite zrange_one.
    + apply (ef_ids _ _ _ _ _ E).
  - rewrite M, (ef_mcnt _ _ _ _ _ E), F, zlen_app, zlen_cons, zlen_nil. lia.
  - rewrite Lf, (ef_leafs _ _ _ _ _ E). cbn [map]. rewrite zsum_cons. change (zsum []) with 0. lia.
  - rewrite In, (ef_ints _ _ _ _ _ E). cbn [map]. rewrite zsum_cons. change (zsum []) with 0. lia.
  - rewrite O, (ef_out _ _ _ _ _ E), F, map_app. cbn [map]. now rewrite app_assoc.
  - rewrite F, map_app, (ef_nonces _ _ _ _ _ E), app_length, seq_app, map_app. f_equal.
    cbn [map length seq plus]. rewrite Hk, (ef_nonce _ _ _ _ _ E). reflexivity.
  - rewrite K, (ef_nonce _ _ _ _ _ E), F, app_length. cbn [length]. lia.
Qed.

Lemma next_name_spec l s g :
  ids_rep h (b_ids s) g -> 0 <= l <= h -> 0 <= g l ->
  run (next_name P v l) s
    (fun nm s' => impl_name (nx_man x) (Some (g l)) = Ok nm /\
       exists ids', s' = took_id (g l) ids' s /\ ids_rep h ids' (upd g l))
    (fun e s' => enc_fail e /\ b_out s' = b_out s /\ b_nonce s' = b_nonce s).
Proof.
  intros R L G. unfold next_name. apply run_bind. apply run_guard; [unfold h in L; lia|].
  apply run_bind, run_get. destruct (next_id_spec _ _ _ _ R L G) as [ids' [E R']].
  apply run_bind. eapply run_lift_ok; [exact E|]. apply run_bind. apply run_guard; [lia|].
  apply run_bind, run_mod. apply run_lift.
  - intros a Ha. split; [assumption|]. exists ids'. split; [reflexivity|assumption].
  - intros e He. split; [|split; reflexivity]. right; right; left. exists (g l). now split.
Qed.

Lemma tb_packet_spec gs ds is l s g :
  planned P rnd now v (mkNode (size_data P v (ds + is)) gs None) ->
  ids_rep h (b_ids s) g -> 0 <= l <= h -> 0 <= g l ->
  run (tb_packet P rnd now v gs ds is l) s
    (fun np s' => exists i ids',
       np = (mi_node i, mi_pkt i) /\ made P rnd now v i /\
       mi_node i = mkNode (size_data P v (ds + is)) gs None /\
       mi_level i = l /\ mi_id i = g l /\ mi_nonce i = b_nonce s /\
       s' = set_nonce (b_nonce s + nstep) (took_id (g l) ids' s) /\ ids_rep h ids' (upd g l))
    (bad s).
Proof.
  intros Pl R L G. unfold tb_packet. apply run_bind. apply run_lift.
  2:{ intros e He. apply bad_now. left. eexists. split; [exact Pl|exact He]. }
  intros t _. apply run_bind. eapply run_weaken; [apply next_name_spec; eassumption| |].
  2:{ intros e s' (H1 & H2 & H3). apply bad_same; [assumption..|]. now rewrite H3. }
  intros nm s' [Hn [ids' [-> R']]]. apply run_bind. unfold run, run_fac.
  change (b_nonce (took_id (g l) ids' s)) with (b_nonce s).
  set (nd := mkNode _ gs None).
  destruct (fac_node_packet P rnd now (te_opt v) nd nm (b_nonce s)) as [[p|e] k'] eqn:F.
  2:{ apply bad_same; [|reflexivity|cbn; exact (fac_node_grows _ _ _ _ _ F)]. right; right; right. exists nd, (g l), nm, (b_nonce s). unfold o. rewrite F.
      split; [exact Pl|]. split; [exact G|]. split; [exact Hn|reflexivity]. }
  cbn [sret]. pose proof (fac_node_nonce _ _ _ _ _ F) as ->.
  exists (mkMI l (g l) (b_nonce s) nd nm p), ids'. cbn [mi_node mi_pkt mi_level mi_id mi_nonce].
  split; [reflexivity|]. split; [|do 5 (split; [reflexivity|]); assumption].
  unfold made. cbn [mi_node mi_pkt mi_name mi_id mi_nonce]. rewrite F. split; [assumption|].
  split; [reflexivity|]. eapply fac_has_hash. exact F.
Qed.
Lemma meta_at_ok i : 0 <= i < n -> meta_at P v i = Ok (chunk_meta P v i).
Proof.
  intros H. unfold meta_at, chunk_meta.
  rewrite (nth_error_nth' _ no_chunk); [reflexivity|]. unfold n, zlen in H. lia.
Qed.

Lemma chunk_hashes_snoc a b : a <= b ->
  chunk_hashes P v a (b + 1) = chunk_hashes P v a b ++ [cm_hash (chunk_meta P v b)].
Proof.
  intros H. unfold chunk_hashes. rewrite zrange_snoc by lia.
  replace (b + 1 - 1) with b by lia. now rewrite map_app.
Qed.
Lemma chunk_hashes_cons a b : a < b ->
  chunk_hashes P v a b = cm_hash (chunk_meta P v a) :: chunk_hashes P v (a + 1) b.
Proof. intros H. unfold chunk_hashes. now rewrite zrange_cons by lia. Qed.
Lemma chunk_bytes_cons a l :
  chunk_bytes P v (a :: l) = cm_bytes (chunk_meta P v a) + chunk_bytes P v l.
Proof. reflexivity. Qed.
Lemma chunk_bytes_app a b : chunk_bytes P v (a ++ b) = chunk_bytes P v a + chunk_bytes P v b.
Proof. unfold chunk_bytes. now rewrite map_app, zsum_app. Qed.

Lemma hb_append_direct_ok hs ds is dc ic md mi hv z : dc < md ->
  hb_append_direct (mkHB hs ds is dc ic md mi) hv z
  = Ok (mkHB (hs ++ [hv]) (add_opt ds z) is (dc + 1) ic md mi).
Proof.
  intros H. unfold hb_append_direct. cbn [hb_dcount hb_maxd]. now replace (dc <? md) with true by lia.
Qed.

Lemma leaf_fold k a hs ds cnt maxd : 0 <= a -> a + Z.of_nat k <= n -> cnt + Z.of_nat k <= maxd ->
  foldM (fun b i => c <- meta_at P v i ;; hb_append_direct b (cm_hash c) (Some (cm_bytes c)))
    (mkHB hs ds 0 cnt 0 maxd 0) (zrange a (a + Z.of_nat k))
  = Ok (mkHB (hs ++ chunk_hashes P v a (a + Z.of_nat k))
             (ds + chunk_bytes P v (zrange a (a + Z.of_nat k))) 0 (cnt + Z.of_nat k) 0 maxd 0).
Proof.
  revert a hs ds cnt. induction k as [|k IH]; intros a hs ds cnt Ha Hb Hc.
  - unfold chunk_hashes. rewrite zrange_nil by lia. cbn [foldM map]. rewrite app_nil_r.
    unfold chunk_bytes. cbn [map]. change (zsum []) with 0. do 2 f_equal; lia.
  - rewrite zrange_cons by lia. cbn [foldM]. rewrite meta_at_ok by lia. cbn [bind].
    rewrite hb_append_direct_ok by lia. cbn [bind add_opt].
    replace (a + Z.of_nat (S k)) with (a + 1 + Z.of_nat k) by lia.
    rewrite IH by lia. rewrite (chunk_hashes_cons a) by lia. rewrite chunk_bytes_cons, <- app_assoc.
    cbn [app]. do 2 f_equal; lia.
Qed.

Lemma tb_leaf_spec l s g :
  ids_rep h (b_ids s) g -> 0 <= l <= h -> 0 <= g l ->
  0 <= b_head s < b_tail s -> b_tail s <= n -> 1 <= te_p v ->
  run (tb_leaf P rnd now v l) s
    (fun np s' => exists i, let lo := Z.max (b_head s) (b_tail s - te_p v) in
       let t := Leaf i lo (b_tail s) in
       np = (mi_node i, mi_pkt i) /\ wf P rnd now v (Z.to_nat l) t /\
       eff s s' g (upd g l) [t] /\ b_head s' = b_head s /\ b_tail s' = lo /\
       b_last s' = Some (mi_id i))
    (bad s).
Proof.
  intros R L G S1 S2 Hp. unfold tb_leaf. apply run_bind, run_get.
  set (lo := Z.max _ _). assert (Hlo : 0 <= lo < b_tail s /\ b_tail s - lo <= te_p v) by lia.
  apply run_bind. unfold tb_leaf_packet. apply run_bind. apply run_guard; [lia|].
  apply run_bind. eapply run_lift_ok.
  { replace (b_tail s) with (lo + Z.of_nat (Z.to_nat (b_tail s - lo))) by lia.
    unfold hb_new. apply leaf_fold; lia. }
  replace (lo + Z.of_nat (Z.to_nat (b_tail s - lo))) with (b_tail s) by lia.
  apply run_bind. eapply run_lift_ok.
  { instantiate (1 := opt_if (uses_name_id (nx_man x)) (cm_num (chunk_meta P v lo))).
    unfold start_segment_id, opt_if, x. rewrite meta_at_ok by lia. cbn [bind].
    destruct (uses_name_id _); reflexivity. }
  assert (Pl : planned P rnd now v (leaf_node P v lo (b_tail s))).
  { left. exists lo, (b_tail s). split; [lia|]. split; [exact S2|]. split; [lia|reflexivity]. }
  apply run_bind. apply run_lift.
  2:{ intros e He. apply bad_now. right; left. unfold hb_group in He.
      cbn [is_none negb orb hb_isize hb_dsize hb_ptrs app] in He.
      rewrite orb_true_r in He. cbn [orb] in He. rewrite !Z.add_0_l in He.
      destruct (hg_tlv _) eqn:E in He; [discriminate|]. cbn [bind] in He.
      exists (leaf_node P v lo (b_tail s)). eexists. split; [exact Pl|]. split; [left; reflexivity|].
      injection He as ->. exact E. }
  intros grp Hg. apply run_bind, run_mod.
  eapply run_weaken; [apply (tb_packet_spec _ _ _ l (inc_leafs s) g); [|assumption..]| |].
  { replace (mkNode _ _ _) with (leaf_node P v lo (b_tail s)); [exact Pl|].
    unfold leaf_node. cbn [hb_dsize hb_isize hb_new]. rewrite Z.add_0_r, Z.add_0_l. f_equal.
    f_equal. unfold hb_group in Hg. cbn [is_none negb orb hb_isize hb_dsize hb_ptrs app] in Hg.
    rewrite orb_true_r in Hg. cbn [orb] in Hg. rewrite !Z.add_0_l in Hg.
    destruct (hg_tlv _) in Hg; [|discriminate]. cbn [bind] in Hg. apply Ok_inj in Hg. now subst grp. }
  2:{ intros e s'. apply bad_out; reflexivity. }
  intros np s' [i [ids' [-> [Md [Nd [Lv [Id [Nc [-> R']]]]]]]]].
  apply run_bind. unfold decrement_tail. apply run_bind. apply run_guard; [lia|].
  apply run_bind, run_get. apply run_bind, run_mod. unfold seg_check. apply run_bind, run_get.
  apply run_guard. { cbn. lia. }
  apply run_bind, run_mod. apply run_ret. exists i. fold lo. cbv zeta.
  split; [reflexivity|]. split; [|split; [|split; [reflexivity|split; [cbn; lia|cbn; now rewrite Id]]]].
  - apply wf_leaf. split; [lia|]. split; [assumption|]. split; [lia|]. split; [exact S2|]. split; [lia|].
    rewrite Nd. unfold leaf_node. cbn [hb_dsize hb_isize hb_new]. rewrite Z.add_0_r, Z.add_0_l. f_equal.
    f_equal. unfold hb_group in Hg. cbn [is_none negb orb hb_isize hb_dsize hb_ptrs app] in Hg.
    rewrite orb_true_r in Hg. cbn [orb] in Hg. rewrite !Z.add_0_l in Hg.
    destruct (hg_tlv _) in Hg; [|discriminate]. cbn [bind] in Hg. apply Ok_inj in Hg. now subst grp.
  - eapply eff_top with (kids := []) (s2 := s) (i := i) (g2 := g).
    + now apply eff_nil.
    + reflexivity.
    + assumption.
    + assumption.
    + exact Nc.
    + intros j. left. reflexivity.
    + intros j. cbn [ids_at flat_map]. now rewrite app_nil_r.
    + reflexivity.
    + exact R'.
    + reflexivity.
    + cbn. lia.
    + cbn. lia.
    + cbn [snd]. reflexivity.
    + reflexivity.
Qed.
Lemma ids_at_high l : forall t j, wf P rnd now v l t -> j < 0 \/ Z.of_nat l < j -> ids_at j t = [].
Proof.
  induction l as [|l IH]; intros t j W J.
  - destruct t as [i lo hi|i lo hi kids]; [|contradiction].
    cbn [ids_at]. pose proof (wf_level _ _ W) as H. cbn [top] in H.
    destruct (mi_level i =? j) eqn:E; [lia|reflexivity].
  - pose proof (wf_level _ _ W) as H. destruct t as [i lo hi|i lo hi kids]; cbn [ids_at top] in *.
    + destruct (mi_level i =? j) eqn:E; [lia|reflexivity].
    + cbn [wf] in W. destruct W as (_ & _ & _ & _ & _ & _ & _ & _ & _ & W).
      destruct (mi_level i =? j) eqn:E; [lia|]. cbn [app]. apply flat_map_nil.
      intros a Ha. rewrite Forall_forall in W. apply IH; [now apply W|lia].
Qed.
Lemma ids_at_top l t : wf P rnd now v l t -> ids_at (Z.of_nat l) t = [mi_id (top t)].
Proof.
  intros W. pose proof (wf_level _ _ W) as H. destruct t as [i lo hi|i lo hi kids]; cbn [ids_at top] in *.
  - now rewrite H, Z.eqb_refl.
  - rewrite H, Z.eqb_refl. cbn [app]. f_equal. destruct l as [|l]; [contradiction|]. cbn [wf] in W.
    destruct W as (_ & _ & _ & _ & _ & _ & _ & _ & _ & W).
    apply flat_map_nil. intros a Ha. rewrite Forall_forall in W. eapply ids_at_high; [now apply W|lia].
Qed.
Lemma zsum_le (A : Type) (f : A -> Z) l B : (forall a, In a l -> f a <= B) -> zsum (map f l) <= zlen l * B.
Proof.
  induction l as [|a l IH]; intros H; [cbn; lia|]. cbn [map]. rewrite zsum_cons, zlen_cons.
  specialize (IH ltac:(intros; apply H; now right)). specialize (H a ltac:(now left)). nia.
Qed.
Lemma ids_at_count l : 0 <= m -> forall t j, wf P rnd now v l t -> 0 <= j <= Z.of_nat l ->
  zlen (ids_at j t) <= m ^ (Z.of_nat l - j).
Proof.
  intros Hm. induction l as [|l IH]; intros t j W J.
  - replace j with (Z.of_nat 0) by lia. rewrite (ids_at_top _ _ W). rewrite Z.sub_diag. cbn. lia.
  - destruct (Z.eq_dec j (Z.of_nat (S l))) as [->|N].
    { rewrite (ids_at_top _ _ W), Z.sub_diag. cbn. lia. }
    pose proof (wf_level _ _ W) as H. destruct t as [i lo hi|i lo hi kids]; cbn [ids_at top] in *.
    + destruct (mi_level i =? j) eqn:E; [lia|]. rewrite zlen_nil. apply Z.pow_nonneg; lia.
    + destruct (mi_level i =? j) eqn:E; [lia|]. cbn [app]. rewrite zlen_flat_map.
      cbn [wf] in W. destruct W as (_ & _ & _ & _ & _ & _ & K & _ & _ & W).
      rewrite Forall_forall in W.
      etransitivity; [apply zsum_le with (B := m ^ (Z.of_nat l - j))|].
      * intros a Ha. apply IH; [now apply W|lia].
      * replace (Z.of_nat (S l) - j) with (1 + (Z.of_nat l - j)) by lia.
        rewrite Z.pow_add_r by lia. rewrite Z.pow_1_r. apply Z.mul_le_mono_nonneg_r; [|exact K].
        apply Z.pow_nonneg; lia.
Qed.

Lemma bytes_of_inner i lo hi kids : bytes_of P v (Inner i lo hi kids)
  = chunk_bytes P v (zrange lo hi) + zsum (map (bytes_of P v) kids).
Proof.
  unfold bytes_of at 1. cbn [chunks]. rewrite chunk_bytes_app. f_equal.
  induction kids as [|k kids IH]; [reflexivity|]. cbn [flat_map map].
  rewrite chunk_bytes_app, zsum_cons, IH. reflexivity.
Qed.
Lemma node_size_wf l t : wf P rnd now v l t -> n_data (mi_node (top t)) = size_data P v (bytes_of P v t).
Proof.
  destruct t as [i lo hi|i lo hi kids]; cbn [top]; intros W.
  - apply wf_leaf in W. destruct W as (_ & _ & _ & _ & _ & ->). reflexivity.
  - destruct l as [|l]; [contradiction|]. cbn [wf] in W. destruct W as (_ & _ & _ & _ & _ & _ & _ & -> & _).
    cbn [inner_node n_data]. rewrite bytes_of_inner. unfold kids_bytes, size_data, opt_if.
    destruct (op_nsize (te_opt v)); reflexivity.
Qed.
Lemma optional_size_wf l t : wf P rnd now v l t ->
  optional_size P v (mi_node (top t)) = Ok (opt_if (op_nsize o) (bytes_of P v t)).
Proof.
  intros W. unfold optional_size. rewrite (node_size_wf _ _ W). unfold size_data, opt_if, o.
  destruct (op_nsize (te_opt v)); reflexivity.
Qed.

(* what the builders hold after the chunks lo..hi-1 and the children kids *)
Definition pair_of (lo hi : Z) (kids : list tree) : pair :=
  if nx_two x then
    Two (mkHB (chunk_hashes P v lo hi) (chunk_bytes P v (zrange lo hi)) 0 (hi - lo) 0 d 0)
        (mkHB (kid_hashes P kids) 0 (kids_bytes P v kids) 0 (zlen kids) 0 m)
  else One (mkHB (chunk_hashes P v lo hi ++ kid_hashes P kids) (chunk_bytes P v (zrange lo hi))
              (kids_bytes P v kids) (hi - lo) (zlen kids) d m).

Lemma pair_of_new t : pr_new (nx_two x) d m = pair_of t t [].
Proof.
  unfold pair_of, pr_new, chunk_hashes. rewrite zrange_nil by lia. rewrite Z.sub_diag.
  unfold kids_bytes. cbn [map]. destruct (op_nsize _); reflexivity.
Qed.
Lemma pair_direct_full lo hi kids : hb_direct_full (pr_direct (pair_of lo hi kids)) = (d <=? hi - lo).
Proof. unfold pair_of. destruct (nx_two x); reflexivity. Qed.
Lemma pair_indirect_full lo hi kids : hb_indirect_full (pr_indirect (pair_of lo hi kids)) = (m <=? zlen kids).
Proof. unfold pair_of. destruct (nx_two x); reflexivity. Qed.

Lemma kids_bytes_cons t kids : kids_bytes P v (t :: kids)
  = add_opt (kids_bytes P v kids) (opt_if (op_nsize o) (bytes_of P v t)).
Proof.
  unfold kids_bytes, opt_if, o. destruct (op_nsize (te_opt v)); cbn [map add_opt]; [rewrite zsum_cons|]; lia.
Qed.
Lemma add_child_cons l t u kids : wf P rnd now v l t -> zlen kids < m ->
  add_child P v hb_prepend_indirect (mi_node (top t), mi_pkt (top t)) (pair_of u u kids)
  = Ok (pair_of u u (t :: kids)).
Proof.
  intros W K. unfold add_child. cbn [fst snd]. destruct (wf_made _ _ W) as (_ & _ & ->). cbn [bind].
  rewrite (optional_size_wf _ _ W). cbn [bind]. unfold pr_on_indirect, pair_of.
  rewrite kids_bytes_cons, zlen_cons, (Z.add_comm 1).
  destruct (nx_two x); unfold hb_prepend_indirect; cbn [hb_icount hb_maxi];
    (replace (zlen kids <? m) with true by lia); cbn [guard bind hb_ptrs hb_dsize hb_isize hb_dcount hb_icount hb_maxd hb_maxi].
  - reflexivity.
  - unfold chunk_hashes. rewrite zrange_nil by lia. reflexivity.
Qed.
Lemma add_child_right l t u : wf P rnd now v l t -> 0 < m ->
  add_child P v hb_append_indirect (mi_node (top t), mi_pkt (top t)) (pair_of u u [])
  = Ok (pair_of u u [t]).
Proof.
  intros W K. unfold add_child. cbn [fst snd]. destruct (wf_made _ _ W) as (_ & _ & ->). cbn [bind].
  rewrite (optional_size_wf _ _ W). cbn [bind]. unfold pr_on_indirect, pair_of.
  rewrite kids_bytes_cons.
  destruct (nx_two x); unfold hb_append_indirect; cbn [hb_icount hb_maxi];
    (replace (zlen (@nil tree) <? m) with true by (rewrite zlen_nil; lia)); cbn [guard bind hb_ptrs hb_dsize hb_isize hb_dcount hb_icount hb_maxd hb_maxi].
  - reflexivity.
  - unfold chunk_hashes. rewrite zrange_nil by lia. reflexivity.
Qed.
Lemma add_direct_one lo hi kids : lo <= hi -> hi - lo < d ->
  pr_on_direct (fun b => hb_prepend_direct b (cm_hash (chunk_meta P v (lo - 1)))
                           (Some (cm_bytes (chunk_meta P v (lo - 1))))) (pair_of lo hi kids)
  = Ok (pair_of (lo - 1) hi kids).
Proof.
  intros L H. unfold pr_on_direct, pair_of.
  rewrite (chunk_hashes_cons (lo - 1)) by lia. rewrite (zrange_cons (lo - 1)) by lia.
  rewrite chunk_bytes_cons. replace (lo - 1 + 1) with lo by lia.
  destruct (nx_two x); unfold hb_prepend_direct; cbn [hb_dcount hb_maxd];
    (replace (hi - lo <? d) with true by lia); cbn [guard bind hb_ptrs hb_dsize hb_isize hb_dcount hb_icount hb_maxd hb_maxi add_opt app];
    repeat (f_equal; try lia).
Qed.
Lemma set_tail_same s : set_tail (b_tail s) s = s.
Proof. now destruct s. Qed.

Lemma direct_loop_spec fuel : forall lo hi kids least s,
  b_tail s = lo -> lo <= hi -> 0 <= b_head s <= lo -> lo <= n -> lo - b_head s <= Z.of_nat fuel ->
  run (direct_loop P fuel v (pair_of lo hi kids) least) s
    (fun r s' => exists lo', lo' = lo - Z.min (lo - b_head s) (Z.max 0 (d - (hi - lo))) /\
       r = (pair_of lo' hi kids, if lo' <? lo then Some (cm_num (chunk_meta P v lo')) else least) /\
       s' = set_tail lo' s)
    (fun _ _ => False).
Proof.
  induction fuel as [|fuel IH]; intros lo hi kids least s T L Hd Hn F.
  - cbn [direct_loop]. apply run_bind, run_get. unfold seg_empty.
    replace (b_head s =? b_tail s) with true by lia. rewrite andb_false_r.
    apply run_ret. exists lo. split; [lia|]. split; [now rewrite Z.ltb_irrefl|].
    now rewrite <- T, set_tail_same.
  - cbn [direct_loop]. apply run_bind, run_get. rewrite pair_direct_full. unfold seg_empty.
    destruct (negb (d <=? hi - lo) && negb (b_head s =? b_tail s)) eqn:C.
    + assert (C1 : hi - lo < d /\ b_head s < lo) by lia.
      apply run_bind. eapply run_lift_ok; [apply meta_at_ok; lia|]. rewrite T.
      apply run_bind. eapply run_lift_ok; [apply add_direct_one; lia|].
      apply run_bind. unfold decrement_tail. apply run_bind. apply run_guard; [reflexivity|].
      apply run_bind, run_get, run_bind, run_mod. unfold seg_check. apply run_bind, run_get.
      apply run_guard; [cbn; lia|]. rewrite T.
      eapply run_weaken; [apply (IH (lo - 1) hi kids _ (set_tail (lo - 1) s)); cbn; lia| |contradiction].
      cbn [b_head set_tail]. intros r s' (lo' & E & -> & ->). exists lo'. split; [lia|]. split; [|reflexivity].
      f_equal. destruct (lo' <? lo - 1) eqn:E1; destruct (lo' <? lo) eqn:E2; try lia; [reflexivity|].
      do 3 f_equal. lia.
    + apply run_ret. exists lo. split; [lia|]. split; [now rewrite Z.ltb_irrefl|].
      now rewrite <- T, set_tail_same.
Qed.

Definition cap (l : nat) : Z := capacity d m l.
Definition room (l : nat) (g : Z -> Z) : Prop :=
  forall j, 0 <= j <= Z.of_nat l ->
    full m (Z.to_nat (h - j)) + m ^ (Z.of_nat l - j) - 1 <= g j.
(* the result of building one subtree at level l on the right end of the segment *)
Record built (l : nat) (s : bst) (g : Z -> Z) (np : node * packet) (s' : bst) (t : tree) (g' : Z -> Z)
  : Prop :=
  { bt_wf : wf P rnd now v l t;
    bt_packed : packed P v l t;
    bt_np : np = (mi_node (top t), mi_pkt (top t));
    bt_eff : eff s s' g g' [t];
    bt_head : b_head s' = b_head s;
    bt_tail : b_tail s' = b_tail s - Z.min (b_tail s - b_head s) (cap l);
    bt_chunks : chunks t = zrange (b_tail s') (b_tail s);
    bt_last : b_last s' = Some (mi_id (top t)) }.
Definition child_spec (l : nat) (c : st bst (node * packet)) : Prop :=
  forall s g, ids_rep h (b_ids s) g -> 0 <= b_head s < b_tail s -> b_tail s <= n -> room l g ->
    run c s (fun np s' => exists t g', built l s g np s' t g') (bad s).

Hypothesis Hd : 1 <= d.
Hypothesis Hm : 1 <= m.

Lemma eff_used s s' g g' t l j : eff s s' g g' [t] -> wf P rnd now v l t -> 0 <= j <= Z.of_nat l ->
  g j - m ^ (Z.of_nat l - j) <= g' j.
Proof.
  intros E W J. pose proof (ids_at_count l ltac:(lia) t j W J) as C.
  pose proof (ef_ids _ _ _ _ _ E j) as I. cbn [flat_map] in I. rewrite app_nil_r in I.
  rewrite I, zrange_len in C. lia.
Qed.

Lemma indirect_loop_spec l child fuel u : child_spec l child ->
  forall kids s g,
  ids_rep h (b_ids s) g -> 0 <= b_head s <= b_tail s -> b_tail s <= n ->
  b_tail s - b_head s <= Z.of_nat fuel -> zlen kids <= m ->
  (forall j, 0 <= j <= Z.of_nat l ->
     full m (Z.to_nat (h - j)) + (m - zlen kids) * m ^ (Z.of_nat l - j) - 1 <= g j) ->
  run (indirect_loop P fuel v child (pair_of u u kids)) s
    (fun b s' => exists ts g',
       b = pair_of u u (ts ++ kids) /\ Forall (wf P rnd now v l) ts /\ Forall (packed P v l) ts /\
       zlen (ts ++ kids) <= m /\ eff s s' g g' ts /\ b_head s' = b_head s /\
       b_tail s' = b_tail s - Z.min (b_tail s - b_head s) ((m - zlen kids) * cap l) /\
       flat_map chunks ts = zrange (b_tail s') (b_tail s) /\
       Forall (fun t => zlen (chunks t) = cap l) (tl ts) /\
       (ts <> [] -> b_last s' = Some (first_id ts) /\ b_head s < b_tail s) /\
       (ts = [] -> s' = s))
    (bad s).
Proof.
  intros Hc. assert (Hcap : 1 <= cap l) by (apply capacity_pos; lia).
  induction fuel as [|fuel IH]; intros kids s g R S1 S2 F K Rm.
  - cbn [indirect_loop]. apply run_bind, run_get. unfold seg_empty.
    replace (b_head s =? b_tail s) with true by lia. rewrite andb_false_r.
    apply run_ret. exists [], g. cbn [app flat_map tl].
    split; [reflexivity|]. split; [constructor|]. split; [constructor|]. split; [assumption|].
    split; [now apply eff_nil|]. split; [reflexivity|]. split; [nia|].
    split; [now rewrite zrange_nil by lia|]. split; [constructor|]. split; [contradiction|reflexivity].
  - cbn [indirect_loop]. apply run_bind, run_get. rewrite pair_indirect_full. unfold seg_empty.
    destruct (negb (m <=? zlen kids) && negb (b_head s =? b_tail s)) eqn:C.
    2:{ apply run_ret. exists [], g. cbn [app flat_map tl].
        split; [reflexivity|]. split; [constructor|]. split; [constructor|]. split; [assumption|].
        split; [now apply eff_nil|]. split; [reflexivity|].
        split. { destruct (Z.eq_dec (zlen kids) m) as [->|]; [rewrite Z.sub_diag; lia|]. assert (b_head s = b_tail s) by lia. nia. }
        split; [now rewrite zrange_nil by lia|]. split; [constructor|]. split; [contradiction|reflexivity]. }
    assert (C1 : zlen kids < m /\ b_head s < b_tail s) by lia. destruct C1 as [C1 C2].
    apply run_bind. eapply run_weaken; [apply (Hc s g); try assumption; try lia| |].
    { intros j J. specialize (Rm j J). pose proof (Z.pow_nonneg m (Z.of_nat l - j) ltac:(lia)). nia. }
    2:{ intros e s' H. exact H. }
    intros np s1 (t & g1 & B). destruct B as [Bw Bp Bn Be Bh Bt Bc Bl]. subst np.
    apply run_bind. eapply run_lift_ok; [eapply add_child_cons; eassumption|].
    eapply run_weaken; [apply (IH (t :: kids) s1 g1)| |].
    + apply Be.
    + lia.
    + lia.
    + lia.
    + rewrite zlen_cons. lia.
    + intros j J. specialize (Rm j J). rewrite zlen_cons. pose proof (eff_used _ _ _ _ _ _ _ Be Bw J). nia.
    + intros b s2 (ts & g2 & -> & Fw & Fp & Kl & E2 & H2 & T2 & Ch & Fu & La & Sm).
      exists (ts ++ [t]), g2.
      split; [now rewrite <- app_assoc|]. split; [apply Forall_app; auto|]. split; [apply Forall_app; auto|].
      split; [now rewrite <- app_assoc|]. split; [eapply eff_app; eassumption|]. split; [lia|].
      split. { rewrite T2, Bt, Bh, zlen_cons. nia. }
      split. { rewrite flat_map_app. cbn [flat_map]. rewrite app_nil_r, Ch, Bc. symmetry. apply zrange_app.
               rewrite zlen_cons in T2. nia. }
      split. { destruct ts as [|t0 ts]; [constructor|]. cbn [app tl] in *. apply Forall_app. split; [assumption|].
               constructor; [|constructor]. rewrite Bc, zrange_len. destruct (La ltac:(discriminate)) as [_ La2]. lia. }
      split; [|intros X; now destruct ts].
      intros _. split; [|lia]. destruct ts as [|t0 ts]; cbn [app first_id].
      * specialize (Sm eq_refl). subst s2. exact Bl.
      * now apply La.
    + intros e s' B. eapply bad_after; [exact Be| |exact B]. constructor; [now exists l|constructor].
Qed.

(* one hash group only if no name constructor uses ids *)
Definition ctx_ok : Prop :=
  nx_two x = false -> uses_name_id (nx_man x) = false /\ uses_name_id (nx_data x) = false.
Hypothesis Hctx : ctx_ok.

Lemma hb_group_inv b nc start leaf sub g : hb_group b (Some nc) start leaf sub = Ok g ->
  g = mkHG (Some (mkGD (opt_if sub (hb_isize b + hb_dsize b)) None (opt_if leaf (hb_dsize b)) None (Some nc) start))
        (Some (hb_ptrs b)).
Proof.
  unfold hb_group, opt_if. cbn [is_none negb]. rewrite orb_true_r. cbn [orb].
  destruct (hg_tlv _); [|discriminate]. cbn [bind]. intros H. apply Ok_inj in H. now subst g.
Qed.
Lemma hb_group_err b nc start leaf sub e : hb_group b (Some nc) start leaf sub = Err e ->
  hg_tlv (mkHG (Some (mkGD (opt_if sub (hb_isize b + hb_dsize b)) None (opt_if leaf (hb_dsize b)) None (Some nc) start))
        (Some (hb_ptrs b))) = Err e.
Proof.
  unfold hb_group, opt_if. cbn [is_none negb]. rewrite orb_true_r. cbn [orb].
  destruct (hg_tlv _) eqn:E; [discriminate|]. cbn [bind]. intros H. congruence.
Qed.

Lemma pr_groups_inner lo hi kids gs :
  let ds := if uses_name_id (nx_data x) then Some (cm_num (chunk_meta P v lo)) else None in
  let is := if uses_name_id (nx_man x) then Some (first_id kids) else None in
  pr_groups x (pair_of lo hi kids) (op_gleaf o) (op_gsize o) ds is = Ok gs ->
  gs = n_groups (inner_node P v lo hi kids).
Proof.
  cbv zeta. unfold pr_groups, pair_of, inner_node, x, o. cbn [n_groups].
  destruct (nx_two (te_ctx v)) eqn:E2.
  - destruct (hb_group _ (Some (im_nc (nx_data _))) _ _ _) as [g1|] eqn:G1; [|discriminate]. cbn [bind].
    destruct (hb_group _ (Some (im_nc (nx_man _))) _ _ _) as [g2|] eqn:G2; [|discriminate]. cbn [bind].
    intros H. apply Ok_inj in H. apply hb_group_inv in G1. apply hb_group_inv in G2.
    cbn [hb_isize hb_dsize hb_ptrs] in *. rewrite Z.add_0_l in G1. rewrite Z.add_0_r in G2. subst. reflexivity.
  - destruct (Hctx E2) as [C1 C2]. unfold x in C1, C2. rewrite C1, C2. cbn [is_none guard bind].
    destruct (hb_group _ _ _ _ _) as [g1|] eqn:G1; [|discriminate]. cbn [bind].
    intros H. apply Ok_inj in H. apply hb_group_inv in G1. cbn [hb_isize hb_dsize hb_ptrs] in *.
    rewrite Z.add_comm in G1. subst. reflexivity.
Qed.
Lemma pr_groups_inner_err lo hi kids e :
  let ds := if uses_name_id (nx_data x) then Some (cm_num (chunk_meta P v lo)) else None in
  let is := if uses_name_id (nx_man x) then Some (first_id kids) else None in
  planned P rnd now v (inner_node P v lo hi kids) ->
  pr_groups x (pair_of lo hi kids) (op_gleaf o) (op_gsize o) ds is = Err e -> enc_fail e.
Proof.
  cbv zeta. intros Pl H. right; left. exists (inner_node P v lo hi kids).
  assert (exists g, In g (n_groups (inner_node P v lo hi kids)) /\ hg_tlv g = Err e) as (g & G1 & G2); [|eauto].
  revert H. unfold pr_groups, pair_of, inner_node, x, o. cbn [n_groups].
  destruct (nx_two (te_ctx v)) eqn:E2.
  - destruct (hb_group _ (Some (im_nc (nx_data _))) _ _ _) as [g1|] eqn:G1; cbn [bind].
    2:{ intros [= ->]. apply hb_group_err in G1. cbn [hb_isize hb_dsize hb_ptrs] in G1. rewrite Z.add_0_l in G1.
        eexists. split; [left; reflexivity|exact G1]. }
    destruct (hb_group _ (Some (im_nc (nx_man _))) _ _ _) as [g2|] eqn:G2; cbn [bind]; [discriminate|].
    intros [= ->]. apply hb_group_err in G2. cbn [hb_isize hb_dsize hb_ptrs] in G2. rewrite Z.add_0_r in G2.
    eexists. split; [right; left; reflexivity|exact G2].
  - destruct (Hctx E2) as [C1 C2]. unfold x in C1, C2. rewrite C1, C2. cbn [is_none guard bind].
    destruct (hb_group _ _ _ _ _) as [g1|] eqn:G1; cbn [bind]; [discriminate|].
    intros [= ->]. apply hb_group_err in G1. cbn [hb_isize hb_dsize hb_ptrs] in G1. rewrite Z.add_comm in G1.
    eexists. split; [left; reflexivity|exact G1].
Qed.

Lemma flat_map_top l kids : Forall (wf P rnd now v l) kids ->
  flat_map (ids_at (Z.of_nat l)) kids = map (fun t => mi_id (top t)) kids.
Proof.
  induction 1 as [|t kids W _ IH]; [reflexivity|]. cbn [flat_map map].
  now rewrite (ids_at_top _ _ W), IH.
Qed.
Lemma zrange_first {A} (f : A -> Z) a b t ts : map f (t :: ts) = zrange a b ->
  f t = a /\ b = a + zlen (t :: ts).
Proof.
  intros H. destruct (Z.le_gt_cases b a) as [L|G].
  - rewrite zrange_nil in H by lia. discriminate.
  - pose proof (f_equal zlen H) as Z. rewrite zlen_map, zrange_len in Z.
    rewrite zrange_cons in H by lia. injection H as H _. split; [assumption|]. lia.
Qed.

Lemma eff_heads s s' s1 g g' ts : eff s s' g g' ts ->
  b_ids s1 = b_ids s -> b_mcnt s1 = b_mcnt s -> b_leafs s1 = b_leafs s -> b_ints s1 = b_ints s ->
  b_out s1 = b_out s -> b_nonce s1 = b_nonce s -> eff s1 s' g g' ts.
Proof.
  intros E E1 E2 E3 E4 E5 E6. destruct E. split; try assumption.
  all: rewrite ?E2, ?E3, ?E4, ?E5, ?E6; assumption.
Qed.
Lemma eff_tails s s' s1 g g' ts : eff s s' g g' ts ->
  b_ids s1 = b_ids s' -> b_mcnt s1 = b_mcnt s' -> b_leafs s1 = b_leafs s' -> b_ints s1 = b_ints s' ->
  b_out s1 = b_out s' -> b_nonce s1 = b_nonce s' -> eff s s1 g g' ts.
Proof.
  intros E E1 E2 E3 E4 E5 E6. destruct E. split; try assumption.
  all: rewrite ?E1, ?E2, ?E3, ?E4, ?E5, ?E6; assumption.
Qed.

(* the children handed to _interior_manifest *)
Definition right_of (rs : list tree) : option (node * packet) :=
  match rs with [] => None | t :: _ => Some (mi_node (top t), mi_pkt (top t)) end.

Lemma tb_interior_spec l child rs s0 s g0 g :
  child_spec l child ->
  (length rs <= 1)%nat -> Forall (wf P rnd now v l) rs -> Forall (packed P v l) rs ->
  Forall (fun t => zlen (chunks t) = cap l) rs ->
  eff s0 s g0 g rs -> (rs <> [] -> b_last s = Some (first_id rs)) ->
  (exists e, b_tail s <= e <= n /\ flat_map chunks rs = zrange (b_tail s) e) ->
  (rs = [] -> te_p v < b_tail s - b_head s) ->
  0 <= b_head s < b_tail s -> b_tail s <= n -> Z.of_nat (S l) <= h -> room (S l) g0 ->
  run (tb_interior P rnd now v child (Z.of_nat (S l)) (right_of rs)) s
    (fun np s' => exists t g',
       wf P rnd now v (S l) t /\ packed P v (S l) t /\
       np = (mi_node (top t), mi_pkt (top t)) /\ eff s0 s' g0 g' [t] /\
       b_head s' = b_head s /\
       b_tail s' = b_tail s - Z.min (b_tail s - b_head s) (d + (m - zlen rs) * cap l) /\
       chunks t = zrange (b_tail s') (b_tail s) ++ flat_map chunks rs /\
       b_last s' = Some (mi_id (top t)))
    (bad s).
Proof.
  intros Hc Hr Rw Rp Rf E0 Rl Rc Rn S1 S2 Sl Rm.
  assert (Hcap : 1 <= cap l) by (apply capacity_pos; lia).
  assert (Kr : 0 <= zlen rs <= 1) by (unfold zlen; lia).
  unfold tb_interior. apply run_bind. eapply run_lift_ok.
  { instantiate (1 := pair_of (b_tail s) (b_tail s) rs). fold x d m. rewrite (pair_of_new (b_tail s)).
    destruct rs as [|t rs]; [reflexivity|]. destruct rs; [|cbn in Hr; lia]. cbn [right_of].
    eapply add_child_right; [inversion Rw; eassumption|lia]. }
  set (rsv := Z.min d (b_tail s - b_head s)).
  apply run_bind. unfold add_indirect. apply run_bind, run_get. unfold seg_length. fold d. fold rsv.
  apply run_bind. unfold increment_head. apply run_bind. apply run_guard; [lia|].
  apply run_bind, run_get, run_bind, run_mod. unfold seg_check. apply run_bind, run_get.
  apply run_guard; [cbn; lia|]. apply run_bind, run_get. apply run_bind.
  set (s1 := set_head (b_head s + rsv) s).
  assert (W0 : forall t, In t rs -> exists l, wf P rnd now v l t).
  { intros t Ht. rewrite Forall_forall in Rw. eexists; now apply Rw. }
  eapply run_weaken;
    [apply (indirect_loop_spec l child _ (b_tail s) Hc rs s1 g)| |].
  { apply (ef_rep _ _ _ _ _ E0). }
  { cbn. lia. } { cbn. lia. } { cbn. lia. } { lia. }
  { intros j J. specialize (Rm j ltac:(lia)).
    assert (U : g0 j - zlen rs * m ^ (Z.of_nat l - j) <= g j).
    { destruct rs as [|t rs].
      - change (zlen (@nil tree)) with 0. pose proof (ef_ids _ _ _ _ _ E0 j) as I. cbn [flat_map] in I.
        symmetry in I. apply zrange_nil_inv in I. lia.
      - destruct rs; [|cbn in Hr; lia]. rewrite zlen_cons, zlen_nil.
        pose proof (eff_used _ _ _ _ _ l j E0 ltac:(inversion Rw; eassumption) J). lia. }
    replace (Z.of_nat (S l) - j) with (1 + (Z.of_nat l - j)) in Rm by lia.
    rewrite Z.pow_add_r, Z.pow_1_r in Rm by lia. lia. }
  2:{ intros e s'. apply bad_out; reflexivity. }
  intros b s2 (ts & g2 & -> & Tw & Tp & Tk & E2 & H2 & T2 & Ch & Fu & La & Sm).
  change (b_head s1) with (b_head s + rsv) in *. change (b_tail s1) with (b_tail s) in *.
  assert (E3 : eff s0 s2 g0 g2 (ts ++ rs)).
  { eapply eff_app; [exact E0|]. eapply eff_heads; [exact E2|reflexivity..]. }
  assert (WF : Forall (wf P rnd now v l) (ts ++ rs)) by (apply Forall_app; now split).
  assert (B2 : forall e s', b_out s' = b_out s2 -> b_nonce s' = b_nonce s2 -> enc_fail e -> bad s e s').
  { intros e s' O K F. split; [assumption|]. exists ts. split; [|split; [|split]].
    - eapply Forall_impl; [|exact Tw]. intros t Ht. now exists l.
    - rewrite O. apply (ef_out _ _ _ _ _ E2).
    - apply (ef_nonces _ _ _ _ _ E2).
    - rewrite K, (ef_nonce _ _ _ _ _ E2). apply Nat.le_refl. }
  apply run_bind. unfold decrement_head. apply run_bind. apply run_guard; [lia|].
  apply run_bind, run_get, run_bind, run_mod. unfold seg_check. apply run_bind, run_get.
  assert (T2' : b_head s + rsv <= b_tail s2 <= b_tail s) by nia.
  apply run_guard; [cbn; lia|]. apply run_ret.
  apply run_bind. unfold add_direct. apply run_bind, run_get. unfold seg_length.
  set (hi := b_tail s2).
  assert (PE : pair_of (b_tail s) (b_tail s) (ts ++ rs) = pair_of hi hi (ts ++ rs)).
  { unfold pair_of, chunk_hashes. rewrite !(zrange_nil (b_tail s)), !(zrange_nil hi), !Z.sub_diag by lia. reflexivity. }
  rewrite PE. eapply run_weaken; [apply (direct_loop_spec _ hi hi (ts ++ rs) None (set_head (b_head s2 - rsv) s2))| |contradiction].
  { reflexivity. } { lia. } { cbn. lia. } { cbn in *. lia. } { cbn. lia. }
  rewrite Z.sub_diag. cbn [b_head set_head].
  intros r s3 (lo & Elo & -> & ->).
  assert (Hlo : b_head s <= lo < hi /\ hi - lo <= d /\ (hi - lo = d \/ rsv < d)) by (unfold hi in *; lia).
  replace (lo <? hi) with true by lia.
  unfold tb_interior_packet. apply run_bind. apply run_bind, run_get.
  assert (Kne : ts ++ rs <> []).
  { intros N. apply app_eq_nil in N. destruct N as [-> ->]. specialize (Rn eq_refl). specialize (Sm eq_refl). subst s2.
    change (b_tail s1) with (b_tail s) in *. cbn [app] in T2. rewrite zlen_nil in T2. unfold te_p in Rn. fold d m in Rn. nia. }
  assert (Lst : b_last s2 = Some (first_id (ts ++ rs))).
  { destruct ts as [|t ts]; [|now apply La]. specialize (Sm eq_refl). subst s2. cbn [app]. now apply Rl. }
  apply run_bind. eapply run_lift_ok.
  { instantiate (1 := if uses_name_id (nx_man x) then Some (first_id (ts ++ rs)) else None).
    cbn [b_last set_tail set_head]. fold x. destruct (uses_name_id (nx_man x)); cbn [negb]; [now rewrite Lst|reflexivity]. }
  assert (Hids : map (fun t => mi_id (top t)) (ts ++ rs) = zrange (g2 (Z.of_nat l) + 1) (g0 (Z.of_nat l) + 1)).
  { rewrite <- (flat_map_top l) by assumption. apply (ef_ids _ _ _ _ _ E3). }
  assert (Hids' : map (fun t => mi_id (top t)) (ts ++ rs)
    = zrange (first_id (ts ++ rs)) (first_id (ts ++ rs) + zlen (ts ++ rs))).
  { destruct (ts ++ rs) as [|t ks]; [contradiction|].
    destruct (zrange_first _ _ _ _ _ Hids) as [F1 F2]. cbn [first_id]. rewrite Hids, F1, F2. reflexivity. }
  assert (Fol : follows P v hi (ts ++ rs)).
  { destruct Rc as (e & He & Rc). exists e. split; [unfold n, hi in *; lia|]. rewrite flat_map_app, Rc, Ch. symmetry.
      apply zrange_app. unfold hi. lia. }
  assert (Pl : planned P rnd now v (inner_node P v lo hi (ts ++ rs))).
  { right. exists l, lo, hi, (ts ++ rs). split; [lia|]. split; [exact Fol|]. split; [unfold d in *; lia|].
    split; [exact Kne|]. split; [exact Tk|]. split; [exact WF|]. split; [exact Hids'|reflexivity]. }
  fold x. unfold keep. apply run_bind. apply run_lift.
  2:{ intros e He. apply B2; [reflexivity..|]. eapply pr_groups_inner_err; [exact Pl|exact He]. }
  intros gs Hg. apply pr_groups_inner in Hg. subst gs.
  set (s4 := set_tail lo (set_head (b_head s2 - rsv) s2)).
  assert (Kno : forall j, flat_map (ids_at j) (ts ++ rs) = [] \/ j <> Z.of_nat (S l)).
  { intros j. destruct (Z.eq_dec j (Z.of_nat (S l))) as [->|]; [left|now right].
    apply flat_map_nil. intros a Ha. rewrite Forall_forall in WF. eapply ids_at_high; [now apply WF|lia]. }
  assert (G2 : g2 (Z.of_nat (S l)) = g0 (Z.of_nat (S l))).
  { destruct (Kno (Z.of_nat (S l))) as [N|N]; [|contradiction]. rewrite (ef_ids _ _ _ _ _ E3) in N.
    apply zrange_nil_inv in N. pose proof (ef_le _ _ _ _ _ E3 (Z.of_nat (S l))). lia. }
  eapply run_weaken; [apply (tb_packet_spec _ _ _ (Z.of_nat (S l)) s4 g2)| |].
  { replace (mkNode _ _ _) with (inner_node P v lo hi (ts ++ rs)); [exact Pl|].
    unfold inner_node. f_equal. unfold size_data, pair_of. fold x. destruct (nx_two x); reflexivity. }
  { apply (ef_rep _ _ _ _ _ E2). } { lia. }
  { rewrite G2. specialize (Rm (Z.of_nat (S l)) ltac:(lia)). rewrite Z.sub_diag in Rm. change (m ^ 0) with 1 in Rm.
    pose proof (full_nonneg m (Z.to_nat (h - Z.of_nat (S l))) ltac:(lia)). lia. }
  2:{ intros e s' Hb. eapply bad_out with (s1 := s1); [reflexivity..|].
      eapply bad_after; [exact E2| |eapply bad_out; [| |exact Hb]; reflexivity].
      eapply Forall_impl; [|exact Tw]. intros t Ht. now exists l. }
  intros np s5 (i & ids' & -> & Md & Nd & Lv & Id & Nc & -> & R').
  apply run_bind, run_mod, run_bind, run_mod, run_ret.
  exists (Inner i lo hi (ts ++ rs)), (upd g2 (Z.of_nat (S l))).
  split; [|split; [|split; [reflexivity|split; [|split; [|split; [|split]]]]]].
  - cbn [wf]. split; [exact Lv|]. split; [exact Md|]. split; [lia|]. split; [exact Fol|].
    split; [unfold d in *; lia|]. split; [exact Kne|]. split; [exact Tk|]. split.
    { rewrite Nd. unfold inner_node. f_equal. unfold size_data, pair_of. fold x. destruct (nx_two x); reflexivity. }
    split; [exact Hids'|exact WF].
  - cbn [packed]. split; [|split; [|apply Forall_app; now split]].
    + destruct (Z.eq_dec (hi - lo) d) as [->|Nd']; [now left|right].
      assert (ts = []). { destruct ts; [reflexivity|]. destruct (La ltac:(discriminate)) as [_ La2]. unfold rsv in La2. lia. }
      subst ts. cbn [app] in *. destruct rs as [|t rs]; [contradiction|]. destruct rs; [|cbn in Hr; lia].
      exists t. split; [reflexivity|]. now inversion Rf.
    + destruct ts as [|t ts]; cbn [app tl] in *.
      * destruct rs as [|t rs]; [constructor|]. destruct rs; [constructor|cbn in Hr; lia].
      * apply Forall_app. now split.
  - eapply eff_top with (kids := ts ++ rs) (i := i) (s2 := s2).
    + exact E3.
    + reflexivity.
    + exact Lv.
    + exact Id.
    + exact Nc.
    + exact Kno.
    + intros j. reflexivity.
    + apply infos_inner.
    + exact R'.
    + reflexivity.
    + cbn. lia.
    + change (b_ints s2 + 1 = b_ints s2 + (1 + zsum (map inners (ts ++ rs)) - zsum (map inners (ts ++ rs)))). lia.
    + reflexivity.
    + reflexivity.
  - cbn. lia.
  - cbn. unfold hi in *. nia.
  - cbn [chunks]. cbn [b_tail wrote inc_ints set_nonce took_id s4 set_tail]. rewrite flat_map_app, Ch, app_assoc.
    f_equal. symmetry. apply zrange_app. unfold hi. lia.
  - cbn [b_last wrote inc_ints set_nonce took_id top]. now rewrite Id.
Qed.
Lemma te_p_cap : te_p v = cap 0.
Proof. unfold te_p, cap. cbn [capacity]. fold d m. lia. Qed.

Lemma leaf_built l s g : ids_rep h (b_ids s) g -> Z.of_nat l <= h ->
  0 <= b_head s < b_tail s -> b_tail s <= n -> room l g ->
  (l = 0%nat \/ b_tail s - b_head s <= te_p v) ->
  run (tb_leaf P rnd now v (Z.of_nat l)) s (fun np s' => exists t g', built l s g np s' t g') (bad s).
Proof.
  intros R L S1 S2 Rm Q. pose proof te_p_cap as Ep.
  pose proof (capacity_mono d m 0 l Hd Hm ltac:(lia)) as Mono. fold (cap 0) (cap l) in Mono.
  pose proof (capacity_pos d m 0 Hd ltac:(lia)) as Pos. fold (cap 0) in Pos.
  eapply run_weaken; [apply (tb_leaf_spec (Z.of_nat l) s g); try assumption; try lia| |].
  { specialize (Rm (Z.of_nat l) ltac:(lia)). rewrite Z.sub_diag in Rm. change (m ^ 0) with 1 in Rm.
    pose proof (full_nonneg m (Z.to_nat (h - Z.of_nat l)) ltac:(lia)). lia. }
  2:{ intros e s' H. exact H. }
  cbv zeta. intros np s' (i & -> & W & E & Eh & Et & El). rewrite Nat2Z.id in W.
  exists (Leaf i (Z.max (b_head s) (b_tail s - te_p v)) (b_tail s)), (upd g (Z.of_nat l)).
  split; try assumption.
  - apply packed_leaf.
  - reflexivity.
  - rewrite Et. destruct Q as [->|Q]; lia.
  - cbn [chunks]. now rewrite Et.
Qed.

Lemma bottom_up_spec l : Z.of_nat l <= h -> child_spec l (bottom_up P rnd now v l None).
Proof.
  induction l as [|l IH]; intros L s g R S1 S2 Rm; cbn [bottom_up].
  - apply run_bind. apply run_guard; [reflexivity|]. apply (leaf_built 0); auto.
  - apply run_bind, run_get. cbn [is_none andb]. unfold seg_length.
    destruct (b_tail s - b_head s <=? te_p v) eqn:Q.
    + apply leaf_built; auto. right. lia.
    + eapply run_weaken; [apply (tb_interior_spec l _ [] s s g g)| |].
      * apply IH. lia.
      * cbn. lia.
      * constructor.
      * constructor.
      * constructor.
      * now apply eff_nil.
      * contradiction.
      * exists (b_tail s). split; [lia|]. now rewrite zrange_nil by lia.
      * intros _. lia.
      * assumption.
      * assumption.
      * assumption.
      * assumption.
      * intros np s' (t & g' & W & Pk & -> & E & Eh & Et & Ec & El). exists t, g'.
        split; try assumption; try reflexivity.
        -- rewrite Et. change (zlen (@nil tree)) with 0. unfold cap. cbn [capacity]. fold (cap l).
           rewrite Z.sub_0_r. reflexivity.
        -- rewrite Ec. cbn [flat_map]. apply app_nil_r.
      * intros e s' H. exact H.
Qed.

(* the ids the factory starts with *)
Definition first_ids (j : Z) : Z := full m (Z.to_nat (h - j + 1)) - 1.
Lemma room_first l : Z.of_nat l <= h -> room l first_ids.
Proof.
  intros L j J. unfold first_ids.
  replace (Z.to_nat (h - j + 1)) with (S (Z.to_nat (h - j))) by lia.
  rewrite full_S_pow. replace (Z.of_nat (Z.to_nat (h - j))) with (h - j) by lia.
  pose proof (Z.pow_le_mono_r m (Z.of_nat l - j) (h - j) ltac:(lia) ltac:(lia)). lia.
Qed.

(* the tree built so far: the last chunks under a manifest at level l *)
Record grown (s0 : bst) (l : nat) (np : node * packet) (s : bst) (t : tree) (g : Z -> Z) : Prop :=
  { gr_wf : wf P rnd now v l t;
    gr_packed : packed P v l t;
    gr_np : np = (mi_node (top t), mi_pkt (top t));
    gr_eff : eff s0 s first_ids g [t];
    gr_head : b_head s = 0;
    gr_tail : b_tail s = n - Z.min n (cap l);
    gr_chunks : chunks t = zrange (b_tail s) n;
    gr_last : b_last s = Some (mi_id (top t)) }.

Lemma build_loop_spec s0 fuel : n <= cap (Z.to_nat h) -> forall l np s t g,
  0 <= h -> Z.of_nat l <= h -> grown s0 l np s t g -> b_tail s <= Z.of_nat fuel ->
  (forall k, (k < l)%nat -> cap k < n) ->
  run (build_loop P rnd now fuel v l np) s
    (fun np' s' => exists l' t' g', grown s0 l' np' s' t' g' /\ n <= cap l' /\ Z.of_nat l' <= h /\
       forall k, (k < l')%nat -> cap k < n)
    (fun e s' => bad s0 e s').
Proof.
  intros Hn. induction fuel as [|fuel IH]; intros l np s t g H0 L G F Lw.
  all: cbn [build_loop]; apply run_bind, run_get; unfold seg_empty; rewrite (gr_head _ _ _ _ _ _ G).
  all: assert (N0 : 0 <= n) by apply zlen_nonneg.
  - replace (0 =? b_tail s) with true by (pose proof (gr_tail _ _ _ _ _ _ G); lia).
    apply run_ret. exists l, t, g. split; [assumption|]. pose proof (gr_tail _ _ _ _ _ _ G).
    split; [lia|]. split; assumption.
  - destruct (0 =? b_tail s) eqn:Z0.
    { apply run_ret. exists l, t, g. split; [assumption|]. pose proof (gr_tail _ _ _ _ _ _ G).
      split; [lia|]. split; assumption. }
    pose proof (gr_tail _ _ _ _ _ _ G) as Gt.
    assert (Cl : cap l < n) by lia.
    assert (L' : Z.of_nat (S l) <= h).
    { destruct (Z.le_gt_cases (Z.of_nat (S l)) h) as [?|Gt']; [assumption|].
      assert (Z.to_nat h = l) by lia. subst l. lia. }
    assert (Pc : 1 <= cap l) by (apply capacity_pos; lia).
    apply run_bind.
    change (Some np) with (Some np). rewrite (gr_np _ _ _ _ _ _ G).
    cbn [bottom_up]. apply run_bind, run_get. cbn [is_none andb].
    eapply run_weaken; [apply (tb_interior_spec l _ [t] s0 s first_ids g)| |].
    + apply bottom_up_spec. lia.
    + cbn. lia.
    + constructor; [apply G|constructor].
    + constructor; [apply G|constructor].
    + constructor; [|constructor]. rewrite (gr_chunks _ _ _ _ _ _ G), zrange_len. lia.
    + apply G.
    + intros _. apply G.
    + exists n. split; [lia|]. cbn [flat_map]. rewrite app_nil_r. apply G.
    + discriminate.
    + rewrite (gr_head _ _ _ _ _ _ G). lia.
    + lia.
    + assumption.
    + now apply room_first.
    + intros np' s' (t' & g' & W & Pk & -> & E & Eh & Et & Ec & El).
      assert (Et' : b_tail s' = n - Z.min n (cap (S l))).
      { rewrite Et, (gr_head _ _ _ _ _ _ G), Gt, zlen_cons. change (zlen (@nil tree)) with 0.
        unfold cap at 4. cbn [capacity]. fold (cap l). nia. }
      assert (Cl' : cap l < cap (S l)) by now apply capacity_step.
      apply IH with (t := t') (g := g').
      * assumption.
      * assumption.
      * split; try assumption; try reflexivity.
        -- now rewrite Eh, (gr_head _ _ _ _ _ _ G).
        -- rewrite Ec. cbn [flat_map]. rewrite app_nil_r, (gr_chunks _ _ _ _ _ _ G). symmetry. apply zrange_app. lia.
      * lia.
      * intros k Hk. destruct (Nat.eq_dec k l) as [->|]; [assumption|]. apply Lw. lia.
    + intros e s' B. eapply bad_after; [apply G| |exact B]. constructor; [|constructor]. exists l. apply G.
Qed.

Theorem tb_build_spec s : 1 <= n -> n <= cap (Z.to_nat h) -> 0 <= h ->
  ids_rep h (b_ids s) first_ids -> b_head s = 0 -> b_tail s = n ->
  run (tb_build P rnd now v) s
    (fun np s' => exists l t g, grown s l np s' t g /\ n <= cap l /\ Z.of_nat l <= h /\
       forall k, (k < l)%nat -> cap k < n)
    (bad s).
Proof.
  intros N1 N2 H0 R Eh Et. unfold tb_build. apply run_bind. unfold seg_check. apply run_bind, run_get.
  apply run_guard; [lia|]. apply run_bind.
  eapply run_weaken; [apply (leaf_built 0 s first_ids); try assumption; try lia| |].
  { apply room_first. lia. }
  2:{ intros e s' H. exact H. }
  intros np s1 (t & g & B). apply run_bind, run_get. destruct B as [Bw Bp Bn Be Bh Bt Bc Bl].
  eapply run_weaken; [apply (build_loop_spec s) with (t := t) (g := g)| |].
  - assumption.
  - assumption.
  - lia.
  - split; try assumption.
    + lia.
    + rewrite Bt, Et, Eh, Z.sub_0_r. reflexivity.
    + now rewrite Bc, Et.
  - unfold seg_length. lia.
  - intros k Hk. lia.
  - intros np' s' H. exact H.
  - intros e s' H. exact H.
Qed.
End Builder.
