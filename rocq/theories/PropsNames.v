(* C33 with the names spelled out: what the objects of a tree are called, and
   that every pointer finds an object under the name a reader will ask for. *)
From Coq Require Import ZArith List Bool Lia ZifyBool Permutation.
From Verif Require Import Py Tlv Float Core TlvProofs CoreProofs Flic FlicProofs Spec WireSpec PropsTlv PropsFlic Crypto
  CryptoProofs PropsCrypto Optimizer OptimizerProofs PropsOptimizer Tree TreeSpec TreeProofs PropsTree ChunkProofs PropsChunk TreeFacts
  BuildProofs Store StoreProofs Traversal TraversalProofs EndSpec EndProofs ReadProofs PropsEnd.
Import ListNotations.
Open Scope Z_scope.
Opaque tlv_make tlv_wire tlv_deserialize.

(* ---------------- specification ---------------- *)

(* The prefix the options select for manifests and for data. *)
Definition prefix_of {P} (o : opts P) (man : bool) : option name :=
  match (if man then op_mprefix o else op_dprefix o) with Some n => Some n | None => op_name o end.

(* The name of the object with this number: none in a hashed tree, the prefix
   in a prefixed tree; in a segmented tree the prefix and one more component,
   a manifest id (type 16) or a chunk id (type 5), with the number in the fewest
   bytes of 1, 2, 3, 4 and 8. *)
Definition object_name {P} (o : opts P) (man : bool) (n : Z) : option name :=
  match op_type o with
  | Hashed => None
  | Prefixed => prefix_of o man
  | Segmented =>
      match prefix_of o man with
      | None => None
      | Some p => Some (p ++ [mkComp (if man then 16 else 5) KArray (be_bytes (Z.to_nat (int_width n)) n)])
      end
  end.

(* The object is of the kind [man], has the number [n] and is named so. *)
Definition named_object {P} (o : opts P) (man : bool) (n : Z) (p : packet) : Prop :=
  body_name p = object_name o man n /\
  (if man then exists nd, holds_node o p nd else is_data_object p).

(* ---------------- names of the schemas ---------------- *)

Lemma schema_name P (o : opts P) nc l (man b : bool) i n nm : 0 <= n < 2 ^ 64 ->
  (op_type o = Segmented -> b = man) ->
  schema_create P o nc l (match op_type o with Hashed => None | _ => prefix_of o man end) b = Ok i ->
  impl_name i (Some n) = Ok nm -> nm = object_name o man n.
Proof.
  intros Hn Hb. unfold schema_create, object_name. destruct (op_type o); intros H; apply impl_make_eq in H; subst i; unfold impl_name; cbn [im_schema].
  - intros [= <-]. reflexivity.
  - intros [= <-]. reflexivity.
  - rewrite Hb by reflexivity. destruct (prefix_of o man) as [p|]; [|discriminate]. intros H.
    apply bind_ok in H as (a & Ea & H). apply bind_ok in H as (? & _ & H). apply bind_ok in H as (? & _ & H).
    apply Ok_inj in H. subst nm. apply number_bytes in Ea; [|exact Hn]. subst a. destruct man; reflexivity.
Qed.

Lemma nctx_names P (o : opts P) nc x : nctx_create P o nc = Ok x -> forall n nm, 0 <= n < 2 ^ 64 ->
  (impl_name (nx_man x) (Some n) = Ok nm -> nm = object_name o true n) /\
  (impl_name (nx_data x) (Some n) = Ok nm -> nm = object_name o false n).
Proof.
  intros H n nm Hn.
  assert (TWO : forall ml dl, nctx_two P o nc ml dl (match op_type o with Hashed => None | _ => prefix_of o true end)
      (match op_type o with Hashed => None | _ => prefix_of o false end) = Ok x ->
    (impl_name (nx_man x) (Some n) = Ok nm -> nm = object_name o true n) /\
    (impl_name (nx_data x) (Some n) = Ok nm -> nm = object_name o false n)).
  { intros ml dl H2. unfold nctx_two in H2. apply bind_ok in H2 as (i & Ei & H2). apply bind_ok in H2 as (d & Ed & H2).
    apply Ok_inj in H2. subst x. cbn [nx_man nx_data]. split.
    - eapply schema_name; [exact Hn| |exact Ei]. reflexivity.
    - eapply schema_name; [exact Hn| |exact Ed]. reflexivity. }
  assert (ONE : forall l, op_type o <> Segmented -> (op_type o = Prefixed -> prefix_of o true = prefix_of o false) ->
    nctx_one P o nc l (match op_type o with Hashed => None | _ => prefix_of o true end) = Ok x ->
    (impl_name (nx_man x) (Some n) = Ok nm -> nm = object_name o true n) /\
    (impl_name (nx_data x) (Some n) = Ok nm -> nm = object_name o false n)).
  { intros l NS Eq H1. unfold nctx_one in H1. apply bind_ok in H1 as (i & Ei & H1). apply Ok_inj in H1. subst x. cbn [nx_man nx_data]. split.
    - eapply (schema_name P o nc l true false); [exact Hn|intros T0; congruence|exact Ei].
    - eapply (schema_name P o nc l false false); [exact Hn|reflexivity|]. rewrite <- Ei. destruct (op_type o); try reflexivity; [now rewrite Eq|congruence]. }
  assert (Pf : prefixes P o = (prefix_of o true, prefix_of o false)).
  { unfold prefixes, prefix_of. destruct (op_mprefix o), (op_dprefix o); reflexivity. }
  unfold nctx_create in H. destruct (op_type o) eqn:T.
  - unfold create_hashed in H. apply bind_ok in H as (? & _ & H). destruct (links_eq _ _).
    + eapply ONE; [discriminate|discriminate|exact H].
    + eapply TWO. exact H.
  - rewrite Pf in H. unfold create_named in H. apply bind_ok in H as (e & Ee & H). destruct e; [|eapply TWO; exact H].
    eapply ONE; [discriminate| |exact H]. intros _. unfold opt_name_eq in Ee.
    destruct (prefix_of o true), (prefix_of o false); try discriminate; [|reflexivity]. apply Ok_inj in Ee. f_equal. now apply name_eq_true.
  - unfold create_segmented in H. apply bind_ok in H as (? & _ & H). rewrite Pf in H. apply bind_ok in H as (e & Ee & H).
    apply bind_ok in H as (? & G & H). apply guard_ok in G. destruct e; [discriminate|].
    unfold create_named in H. rewrite Ee in H. cbn [bind] in H. eapply TWO. exact H.
Qed.

Lemma width_bytes_inj a b : 0 <= a < 2 ^ 64 -> 0 <= b < 2 ^ 64 ->
  be_bytes (Z.to_nat (int_width a)) a = be_bytes (Z.to_nat (int_width b)) b -> a = b.
Proof.
  intros Ha Hb E. destruct (number_to_array_intro a ltac:(lia)) as [x Ex]. destruct (number_to_array_intro b ltac:(lia)) as [y Ey].
  rewrite <- (number_bytes a x Ha Ex), <- (number_bytes b y Hb Ey) in E. subst y.
  apply number_to_array_ok in Ex as (_ & _ & Vx & _). apply number_to_array_ok in Ey as (_ & _ & Vy & _).
  rewrite Z.mod_small in Vx, Vy by exact Ha || exact Hb. congruence.
Qed.
Lemma object_name_inj P (o : opts P) m1 m2 a b : op_type o = Segmented -> 0 <= a < 2 ^ 64 -> 0 <= b < 2 ^ 64 ->
  prefix_of o m1 <> None -> object_name o m1 a = object_name o m2 b -> m1 = m2 /\ a = b.
Proof.
  unfold object_name. intros -> Ha Hb Np. destruct (prefix_of o m1) as [p|]; [|congruence]. destruct (prefix_of o m2) as [q|]; [|discriminate].
  intros E. injection E as E. apply app_inj_tail in E as (_ & E). injection E as Et Eb.
  split; [destruct m1, m2; congruence|]. now apply width_bytes_inj.
Qed.

Lemma result_unique_ids P rnd now (v : tenv P) out k np s l t : usable v -> result P rnd now v out k np s l t -> NoDup (map mi_id (infos t)).
Proof.
  intros U R.
  pose proof (level_range P rnd now v l t (rs_wf _ _ _ _ _ _ _ _ _ _ R)) as Lv.
  pose proof (ids_at_perm (zrange 0 (Z.of_nat l + 1)) (zrange_nodup _ _) t) as Pm.
  specialize (Pm ltac:(intros i Hi; apply zrange_in; specialize (Lv i Hi); lia)).
  pose proof U as (Hd & Hm & Hh & _). pose proof (ids_range P rnd now v out k np s l t U R) as Rg.
  pose proof (rs_le _ _ _ _ _ _ _ _ _ _ R) as Le.
  eapply Permutation_NoDup; [exact Pm|]. apply nodup_flat_map; [apply zrange_nodup| |].
    + intros a _. destruct (rs_ids _ _ _ _ _ _ _ _ _ _ R a) as [b ->]. apply zrange_nodup.
    + intros a b y _ _ Ha Hb. apply Rg in Ha, Hb. destruct Ha as [A1 A2], Hb as [B1 B2].
      destruct (Z.lt_trichotomy a b) as [Lt|[|Gt]]; [exfalso|assumption|exfalso].
      * pose proof (full_mono (te_m v) (Z.to_nat (te_h v - b + 1)) (Z.to_nat (te_h v - a)) Hm ltac:(lia)). lia.
      * pose proof (full_mono (te_m v) (Z.to_nat (te_h v - a + 1)) (Z.to_nat (te_h v - b)) Hm ltac:(lia)). lia.
Qed.
Lemma nodup_app {A} (a b : list A) : NoDup a -> NoDup b -> (forall y, In y a -> In y b -> False) -> NoDup (a ++ b).
Proof.
  induction 1 as [|x a Hx _ IH]; intros Hb D; [exact Hb|]. cbn [app]. constructor.
  - intros H. apply in_app_iff in H as [H|H]; [auto|]. eapply D; [now left|exact H].
  - apply IH; [exact Hb|]. intros y Ha. apply D. now right.
Qed.
Lemma nodup_map_inj {A B} (f : A -> B) l : (forall a b, In a l -> In b l -> f a = f b -> a = b) -> NoDup l -> NoDup (map f l).
Proof.
  intros I. induction 1 as [|x l Hx _ IH]; [constructor|]. cbn [map]. constructor.
  - intros H. apply in_map_iff in H as (y & E & Hy). assert (y = x) as -> by (apply I; [now right|now left|exact E]). auto.
  - apply IH. intros a b Ha Hb. apply I; now right.
Qed.

(* ---------------- the theorem ---------------- *)

(* Data object number j of a tree is called object_name o false j; the manifests
   below the root have numbers too and are called object_name o true of them;
   the root has the name of the options.  Every pointer of a manifest below the
   root holds the hash of an object already written, and when the tree is
   segmented it comes with exactly the number in the name of that object; then
   no two of the objects have the same name. *)
Theorem C33_names : forall P clog rnd now (o : opts P) nc data s root s',
  log_ok clog -> op_max o <= 2 ^ 24 -> nc + 1 < 2 ^ 64 ->
  manifest_tree P clog rnd now o nc data s = (Ok root, s') ->
  exists datas mans,
    ms_out s' = ms_out s ++ datas ++ mans ++ [root] /\ body_name root = op_name o /\
    (forall j p, nth_error datas j = Some p -> named_object o false (Z.of_nat j) p) /\
    Forall (fun p => exists nd n items, holds_node o p nd /\ named_object o true n p /\ 0 <= n < 2 ^ 64 /\
      node_iter (n_groups nd) = (items, None) /\
      Forall (fun it => exists man q n', In q (datas ++ mans) /\ packet_hash (pr_sha P) q = Ok (hi_hash it) /\
        named_object o man n' q /\ 0 <= n' < 2 ^ 64 /\
        hi_seg it = match op_type o with Segmented => Some n' | _ => None end) items) mans /\
    (op_type o = Segmented -> NoDup (map body_name (datas ++ mans))).
Proof.
  intros P clog rnd now o nc data s root s' Hl HM Hnc H.
  destruct (manifest_tree_at P clog rnd now o nc data Hl HM _ _ _ H) as (k' & x & ps & l & pkts & meta & num & r & lv & t & np & b & k2 & (SU & Hem) & RS & RP & ->).
  exists pkts, (map mi_pkt (infos t)). cbn [ms_out]. split; [reflexivity|].
  pose proof (su_ctx _ _ _ _ _ _ _ _ _ _ _ _ _ _ _ _ SU) as Hctx. pose proof (nctx_create_wf _ _ _ _ Hctx) as Hx.
  pose proof (emits_nth _ _ _ _ _ _ _ Hem) as (L1 & L2 & _).
  pose proof (emits_nums P o x meta r l pkts Hem) as Hnums. pose proof (emits_numbered P o x meta r l pkts Hem) as Hnum.
  split. { apply root_inv in RP as (h & m & w & _ & _ & _ & _ & _ & Hb & _). unfold body_name. rewrite Hb. reflexivity. }
  assert (DATA : forall j, 0 <= j < zlen meta -> exists p, nth_error pkts (Z.to_nat j) = Some p /\ named_object o false j p /\ 0 <= j < 2 ^ 64 /\
    packet_hash (pr_sha P) p = Ok (cm_hash (nth (Z.to_nat j) meta no_chunk))).
  { intros j Hj. destruct (emits_at P o _ l pkts meta j Hem Hj) as (bb & p & _ & Ep & D). exists p. split; [exact Ep|].
    destruct D as (nm & w & h & Hn & Hb & _ & _ & _ & _ & _ & Hid & _ & Hh & Hm).
    assert (0 <= j < 2 ^ 64) as Hj2 by (unfold MAX_CHUNK_ID in Hid; change (2 ^ 64) with 18446744073709551616; lia).
    split; [split|split; [exact Hj2|]].
    - unfold body_name. rewrite Hb. cbn [co_name]. eapply nctx_names; eassumption.
    - eexists. split; [exact Hb|reflexivity].
    - rewrite Hm. exact Hh. }
  split.
  { intros j p Hp. destruct (DATA (Z.of_nat j)) as (q & Hq & Nq & _).
    - assert (j < length pkts)%nat by (apply nth_error_Some; congruence). unfold zlen. lia.
    - rewrite Nat2Z.id in Hq. assert (q = p) as <- by congruence. exact Nq. }
  set (v := env_of P o x meta r) in *.
  assert (MAN : forall u, In u (subtrees t) -> exists l', wf P rnd now v l' u /\ holds_node o (mi_pkt (top u)) (mi_node (top u)) /\
    named_object o true (mi_id (top u)) (mi_pkt (top u)) /\ 0 <= mi_id (top u) < 2 ^ 64 /\
    packet_hash (pr_sha P) (mi_pkt (top u)) = Ok (pkt_hash P (mi_pkt (top u)))).
  { intros u Hu. destruct (wf_sub P rnd now v t lv (rs_wf _ _ _ _ _ _ _ _ _ _ RS) u Hu) as (l' & _ & W). exists l'.
    destruct (wf_faithful P rnd now v l' u Hx W) as (Hc & Hn & Hh & _).
    assert (holds_node o (mi_pkt (top u)) (mi_node (top u))) as HN by (eapply carries_holds; [|exact Hc]; reflexivity).
    assert (0 <= mi_id (top u) < 2 ^ 64) as Hi.
    { split; [|eapply id_bound; eassumption]. pose proof (su_usable _ _ _ _ _ _ _ _ _ _ _ _ _ _ _ _ SU) as U. fold v in U.
      pose proof (id_in_level _ _ Hu) as Hu'. apply (ids_range P rnd now v _ _ _ _ _ _ U RS) in Hu' as (_ & Hi). destruct U as (_ & Hm & _).
      pose proof (full_nonneg (te_m v) (Z.to_nat (te_h v - mi_level (top u))) ltac:(lia)). lia. }
    split; [exact W|]. split; [exact HN|]. split; [split|split; [exact Hi|exact Hh]].
    - destruct Hc as (m & w & _ & _ & _ & Hb & _). unfold body_name. rewrite Hb. cbn [co_name]. eapply nctx_names; eassumption.
    - eauto. }
  split; cycle 1.
  { intros T. assert (NP : forall m, prefix_of o m <> None).
    { intros m. unfold nctx_create in Hctx. rewrite T in Hctx. unfold create_segmented in Hctx. apply bind_ok in Hctx as (? & G & _).
      apply guard_ok in G. unfold prefix_of. destruct m; [destruct (op_mprefix o)|destruct (op_dprefix o)]; try discriminate; destruct (op_name o); discriminate. }
    assert (ND : NoDup (map mi_id (infos t))) by (eapply result_unique_ids; [apply (su_usable _ _ _ _ _ _ _ _ _ _ _ _ _ _ _ _ SU)|exact RS]).
    assert (NM : forall i, In i (infos t) -> body_name (mi_pkt i) = object_name o true (mi_id i) /\ 0 <= mi_id i < 2 ^ 64).
    { intros i Hi. apply (Permutation_in _ (infos_subtrees t)) in Hi. apply in_map_iff in Hi as (u & <- & Hu).
      destruct (MAN u Hu) as (_ & _ & _ & (N & _) & B & _). auto. }
    assert (DN : map body_name pkts = map (fun j => object_name o false (Z.of_nat j)) (seq 0 (length pkts))).
    { apply (nth_ext _ _ None (object_name o false (Z.of_nat 0))); [now rewrite !map_length, seq_length|].
      rewrite map_length. intros j Hj. rewrite (map_nth (fun j => object_name o false (Z.of_nat j))), seq_nth by exact Hj. cbn [Nat.add].
      assert (0 <= Z.of_nat j < zlen meta) as Hz by (unfold zlen; lia).
      destruct (DATA _ Hz) as (q & Hq & (N & _) & _). rewrite Nat2Z.id in Hq. rewrite <- N. apply nth_error_nth. apply map_nth_error. exact Hq. }
    assert (DB : forall j, In j (seq 0 (length pkts)) -> 0 <= Z.of_nat j < 2 ^ 64).
    { intros j Hj. apply in_seq in Hj. destruct (DATA (Z.of_nat j)) as (_ & _ & _ & B & _); [unfold zlen; lia|exact B]. }
    rewrite map_app, map_map, DN. apply nodup_app.
    - apply nodup_map_inj; [|apply seq_NoDup]. intros a b0 Ha Hb E.
      apply (object_name_inj P o false false _ _ T (DB a Ha) (DB b0 Hb) (NP false)) in E as (_ & E). lia.
    - rewrite (map_ext_in _ (fun i => object_name o true (mi_id i))) by (intros i Hi; now apply NM).
      rewrite <- map_map. apply nodup_map_inj; [|exact ND]. intros a b0 Ha Hb E.
      apply in_map_iff in Ha as (i & <- & Hi). apply in_map_iff in Hb as (j & <- & Hj).
      now apply (object_name_inj P o true true _ _ T (proj2 (NM i Hi)) (proj2 (NM j Hj)) (NP true)) in E.
    - intros y Hy1 Hy2. apply in_map_iff in Hy1 as (a & <- & Ha). apply in_map_iff in Hy2 as (i & E & Hi).
      destruct (NM i Hi) as (E' & Bi). rewrite E' in E.
      apply (object_name_inj P o true false _ _ T Bi (DB a Ha) (NP true)) in E as (E & _). discriminate. }
  apply Forall_forall. intros p Hp. apply in_map_iff in Hp as (i & <- & Hi). apply (Permutation_in _ (infos_subtrees t)) in Hi.
  apply in_map_iff in Hi as (u & <- & Hu). destruct (MAN u Hu) as (l' & W & HN & NO & Hid & _).
  exists (mi_node (top u)), (mi_id (top u)), (map (tg_hiv P v) (targets u)).
  split; [exact HN|]. split; [exact NO|]. split; [exact Hid|]. split; [eapply node_items; eassumption|].
  assert (SEG : forall n : Z, opt_if (uses_name_id (nx_man x)) n = match op_type o with Segmented => Some n | _ => None end).
  { intros n. assert (uses_name_id (nx_man x) = match op_type o with Segmented => true | _ => false end) as EU; [|rewrite EU; destruct (op_type o); reflexivity].
    pose proof (schema_ids P o nc x Hctx) as I. destruct (uses_name_id (nx_man x)); [rewrite (proj1 I eq_refl); reflexivity|].
    destruct (op_type o); [reflexivity|reflexivity|]. discriminate (proj2 I eq_refl). }
  apply Forall_forall. intros it Hit. apply in_map_iff in Hit as (g & <- & Hg). unfold tg_hiv. cbn [hi_hash hi_seg].
  change (te_ctx v) with x. rewrite SEG. destruct g as [j|kd].
  - pose proof (wf_chunk_targets P rnd now v l' u j W Hg) as Hj. change (zlen (te_meta v)) with (zlen meta) in Hj.
    destruct (DATA j Hj) as (q & Hq & Nq & Bq & Eq). exists false, q, j. split; [apply in_app_iff; left; eapply nth_error_In; exact Hq|].
    split; [exact Eq|]. split; [exact Nq|]. split; [exact Bq|]. cbn [tg_num]. rewrite (Hnums j) by exact Hj. reflexivity.
  - assert (In kd (subtrees t)) as Hk.
    { apply (subtrees_trans t u); [exact Hu|]. destruct u as [i0 lo hi|i0 lo hi kids]; cbn [targets] in Hg.
      - apply in_map_iff in Hg as (? & E & _). discriminate.
      - apply in_app_iff in Hg as [Hg|Hg]; apply in_map_iff in Hg as (k0 & E & Hg); [discriminate|]. injection E as ->.
        cbn [subtrees]. right. apply in_flat_map. exists kd. split; [exact Hg|]. destruct kd; now left. }
    destruct (MAN kd Hk) as (l2 & _ & _ & Nk & Bk & Ek). exists true, (mi_pkt (top kd)), (mi_id (top kd)).
    split; [apply in_app_iff; right; apply in_map_iff; exists (top kd); split; [reflexivity|];
      apply (Permutation_in _ (Permutation_sym (infos_subtrees t))); apply in_map; exact Hk|].
    split; [exact Ek|]. split; [exact Nk|]. split; [exact Bk|]. reflexivity.
Qed.

(* seven data objects and several manifests in a segmented tree *)
Definition ex_names (o : opts toy) (data : bytes) : option exn * list (option name) :=
  match manifest_tree toy exact_log (ex_nonce o) (mkFl 0 0) o 1 data (mkMst [] 0) with
  | (Ok _, s) => (None, map body_name (ms_out s))
  | (Err e, s) => (Some e, map body_name (ms_out s))
  end.
Example C33_names_ex : log_ok exact_log /\ op_max (ex_secret Segmented 300) <= 2 ^ 24 /\
  ex_names (ex_secret Segmented 300) (ex_bytes 1600) =
    (None, map (fun n => Some (ex_name [97; 100] ++ [mkComp 5 KArray [n]])) [0; 1; 2; 3; 4; 5; 6] ++
           map (fun n => Some (ex_name [97; 109] ++ [mkComp 16 KArray [n]])) [2; 1; 0] ++ [Some (ex_name [97])]).
Proof. split; [exact (log_exact_ok _ exact_log_exact)|]. split; [vm_compute; discriminate|]. vm_compute. reflexivity. Qed.

Print Assumptions C33_names.
Print Assumptions C33_names_ex.
