(* C59: what a reader can make a receiver write, given only that it answers
   with packets that have the hash asked for. *)
From Coq Require Import ZArith List Bool Lia ZifyBool Permutation.
From Verif Require Import Py Tlv Float Core TlvProofs CoreProofs PropsCore Flic WireSpec FlicProofs Crypto CryptoProofs
  PropsCrypto Optimizer OptimizerProofs Tree TreeSpec TreeProofs TreeFacts PropsOptimizer PropsTree ChunkProofs SizeProofs
  PropsChunk BuildProofs Store StoreSpec StoreProofs PropsStore Traversal TraversalSpec TraversalProofs EndSpec EndProofs
  ReadProofs PropsEnd.
Import ListNotations.
Open Scope Z_scope.
Opaque tlv_make tlv_wire tlv_deserialize.

(* ---------------- specification ---------------- *)

(* every answer has the hash that was asked for *)
Definition hash_checked (P : prims) (get : option name -> option hashv -> res packet) : Prop :=
  forall nm h q, get nm (Some h) = Ok q -> packet_hash (pr_sha P) q = Ok h.
(* none of the answers is a second preimage for one of the packets: if they
   have the same SHA-256, the hashed bytes are the same *)
Definition no_second_preimage (P : prims) (ps : list packet) (get : option name -> option hashv -> res packet) : Prop :=
  forall nm h q p, get nm (Some h) = Ok q -> In p ps ->
    packet_hash (pr_sha P) p = Ok h -> packet_hash (pr_sha P) q = Ok h ->
    packet_hash_input q = packet_hash_input p.

(* ---------------- proofs ---------------- *)

Definition same_content (q p : packet) : Prop :=
  exists c c', p_body p = BCO c /\ p_body q = BCO c' /\ co_ptype c' = co_ptype c /\ co_payload c' = co_payload c.
Lemma input_body p i : packet_hash_input p = Ok i -> exists c t r, p_body p = BCO c /\ co_tlv c = Ok t /\ i = tlv_wire t ++ r.
Proof.
  unfold packet_hash_input, body_wire. intros H. destruct (p_body p) as [c|n]; [|discriminate]. inv_bind H. inv_bind H. inv_bind H.
  apply Ok_inj in H. subst i. inv_bind E. apply Ok_inj in E. subst a.
  exists c, a2. eexists. split; [reflexivity|]. split; [assumption|]. reflexivity.
Qed.
Lemma hashed_same P p q h : packet_hash (pr_sha P) p = Ok h -> packet_hash_input q = packet_hash_input p -> same_content q p.
Proof.
  unfold packet_hash. intros H E. inv_bind H. rename E0 into Ep. rewrite Ep in E.
  apply input_body in Ep as (c & t & r & Hb & Hc & E1). apply input_body in E as (c' & t' & r' & Hb' & Hc' & E2).
  assert (t = t') as <-.
  { rewrite E1 in E2. apply tlv_wire_app_inj in E2; [tauto|eapply co_tlv_tlv_ok; eassumption|eapply co_tlv_tlv_ok; eassumption]. }
  destruct (co_tlv_same _ _ _ Hc Hc') as (_ & Ht & Hp). exists c, c'. auto.
Qed.

Section Integrity.
Context (P : prims) (Ha : aead_correct P) (Ho : oaep_correct P) (clog : Z -> Z -> Z -> Z) (rnd : nat -> bytes) (now : fl)
  (o : opts P) (nc : Z) (data : bytes) (Hmax : op_max o <= 2 ^ 24) (Hnc : nc + 1 < 2 ^ 64).
Context (k k' : nat) (x : nctx) (ps : Z) (l : list bytes) (pkts : list packet) (meta : list cmeta) (num : Z) (r : optres)
  (SU : setup P clog rnd now o nc data k k' x ps l pkts meta num r).
Let v := env_of P o x meta r.
Context (out : list packet) (np : node * packet) (b : bst) (lv : nat) (t : tree)
  (RS : result P rnd now v out k' np b lv t)
  (k1 k2 : nat) (root : packet) (RP : root_packet P rnd now o x (zlen data) (mi_pkt (top t)) k1 = (Ok root, k2)).
Context (get : option name -> option hashv -> res packet) (ks : option (keystore P)) (Hopen : can_open o ks).
Let new := pkts ++ map mi_pkt (infos t) ++ [root].
Context (HC : hash_checked P get) (NP : no_second_preimage P new get).

Lemma answer_same nm h q p : get nm (Some h) = Ok q -> In p new -> packet_hash (pr_sha P) p = Ok h -> same_content q p.
Proof. intros Hg Hp Hh. eapply hashed_same; [exact Hh|]. exact (NP nm h q p Hg Hp Hh (HC _ _ _ Hg)). Qed.

(* going from s to s' wrote an initial part of ls, all of it on success, and
   visited at most n packets *)
Definition wrote (ls : list bytes) (n : Z) (r : res unit) (s s' : tst P) : Prop :=
  exists a c, ls = a ++ c /\ ts_out s' = ts_out s ++ a /\ ts_count s' <= ts_count s + n /\
    (r = Ok tt -> c = [] /\ warm P o (ts_dc s')).
Lemma wrote_nothing ls n s s' e : ts_out s' = ts_out s -> ts_count s' <= ts_count s + n -> wrote ls n (Err e) s s'.
Proof. intros E C. exists [], ls. rewrite app_nil_r. repeat split; auto; discriminate. Qed.

Lemma visit_wrote go c : forall items ls n,
  Forall2 (fun i w => forall nm q s r s', get nm (Some (hi_hash i)) = Ok q -> warm P o (ts_dc s) ->
    go q s = (r, s') -> wrote (fst w) (snd w) r s s') items ls ->
  Forall (fun w => 0 <= snd w) ls -> n = zsum (map snd ls) ->
  forall s r s', warm P o (ts_dc s) -> visit_children P get go c items s = (r, s') -> wrote (concat (map fst ls)) n r s s'.
Proof.
  intros items ls n F. revert n. induction F as [|i w items ls Hi F IH]; intros n Pos -> s r' s' Hw H; cbn [visit_children] in H.
  - injection H as <- <-. exists [], []. cbn [map concat]. rewrite app_nil_r. change (zsum []) with 0. repeat split; auto; [now rewrite app_nil_r|lia].
  - inversion Pos as [|? ? P1 P2]; subst.
    assert (N0 : 0 <= zsum (map snd ls)) by (clear - P2; induction P2; [reflexivity|unfold zsum in *; cbn [map fold_right]; lia]).
    cbn [map concat]. assert (ES : zsum (snd w :: map snd ls) = snd w + zsum (map snd ls)) by reflexivity. rewrite ES.
    unfold sbind at 1, lift in H. destruct (fetch_packet get c i) as [q|e] eqn:Ef.
    2:{ injection H as <- <-. apply wrote_nothing; [reflexivity|lia]. }
    unfold fetch_packet in Ef. destruct (dict_get Z.eqb (hi_nc i) c) as [im|]; [|discriminate]. inv_bind Ef.
    unfold sbind at 1 in H. destruct (validate P q s) as [[[]|e] s1] eqn:Ev.
    2:{ unfold validate, sbind, sget, lift in Ev. injection Ev as Ev <-. injection H as <- <-. apply wrote_nothing; [reflexivity|lia]. }
    assert (s1 = s) as -> by (unfold validate, sbind, sget, lift in Ev; destruct (validate_packet _ _ _); congruence).
    unfold sbind at 1 in H. destruct (go q s) as [r1 s1] eqn:Eg.
    destruct (Hi _ _ _ _ _ Ef Hw Eg) as (a1 & c1 & E1 & O1 & C1 & W1). destruct r1 as [[]|e].
    + destruct (W1 eq_refl) as (-> & Hw1). rewrite app_nil_r in E1.
      destruct (IH _ P2 eq_refl _ _ _ Hw1 H) as (a2 & c2 & E2 & O2 & C2 & W2).
      exists (a1 ++ a2), c2. rewrite E1, E2, app_assoc. split; [reflexivity|]. rewrite O2, O1, app_assoc. split; [reflexivity|]. split; [lia|exact W2].
    + injection H as <- <-. exists a1, (c1 ++ concat (map fst ls)). rewrite E1, app_assoc. split; [reflexivity|]. split; [exact O1|]. split; [lia|discriminate].
Qed.

Lemma chunk_wrote f c i nm q s r' s' : 0 <= i < zlen meta -> get nm (Some (tg_hash P v (TChunk i))) = Ok q ->
  warm P o (ts_dc s) -> preorder P get true f c q s = (r', s') -> wrote [piece l i] 1 r' s s'.
Proof.
  intros Hi Hg Hw H. pose proof (su_emits _ _ _ _ _ _ _ _ _ _ _ _ _ _ _ _ SU) as Hem.
  destruct (emits_at P o (nx_data x) l pkts meta i Hem Hi) as (bb & p & Eb & Ep & D).
  destruct D as (n & w & h & _ & Hb & _ & _ & _ & _ & _ & _ & _ & Hh & Hm).
  assert (tg_hash P v (TChunk i) = h) as E by (cbn [tg_hash]; unfold chunk_meta; cbn [v env_of te_meta]; rewrite Hm; reflexivity).
  rewrite E in Hg. destruct (answer_same nm h q p Hg) as (cc & c' & Hcc & Hc' & Ht & Hp); [unfold new; apply in_app_iff; left; eapply nth_error_In; exact Ep|exact Hh|].
  rewrite Hb in Hcc. injection Hcc as <-. cbn [co_ptype co_payload] in Ht, Hp.
  assert (piece l i = bb) as -> by (unfold piece; apply nth_error_nth; exact Eb).
  destruct f as [|f]; cbn [preorder] in H; [injection H as <- <-; apply wrote_nothing; [reflexivity|lia]|].
  unfold sbind at 1, smod in H. rewrite Hc', Ht in H. change (PT_DATA =? PT_MANIFEST) with false in H. change (PT_DATA =? PT_DATA) with true in H.
  cbv beta iota in H. unfold write_data in H. rewrite Hp in H. unfold smod in H. cbn [ts_count ts_out ts_dc] in H. injection H as <- <-.
  exists [bb], []. cbn [ts_count ts_out ts_dc app]. repeat split; auto. lia.
Qed.

Lemma content_opens nd kk nm p q : carries P rnd v nd kk nm p -> node_wf nd -> same_content q p -> opened P (warm P o) q (node_norm nd).
Proof.
  intros (m & w & Hm & Hw & _ & Hb & _) Hn (c & c' & Hc & Hc' & Ht & Hp). rewrite Hb in Hc. injection Hc as <-.
  cbn [co_ptype co_payload] in Ht, Hp. destruct (enc_ok P o ks Hopen) as (E1 & E2).
  assert (manifest_of_node o nd m) as Hm'.
  { unfold manifest_for in Hm. unfold manifest_of_node. change (te_opt v) with o in Hm. destruct (op_enc o); eauto. }
  destruct (received P o nd m w E1 E2 Hm' Hn Hw) as (m' & D & Em).
  exists c', m'. split; [exact Hc'|]. split; [exact Ht|]. split.
  - unfold man_from_content. rewrite Ht, Hp. exact D.
  - intros s Hs. eapply open_warm; eassumption.
Qed.

(* a manifest of which the pointers are known *)
Lemma node_wrote f c q nd items ls n s r' s' : opened P (warm P o) q nd -> warm P o (ts_dc s) ->
  node_iter (n_groups nd) = (items, None) ->
  Forall (fun w => 0 <= snd w) ls -> n = 1 + zsum (map snd ls) ->
  (forall f' c', Forall2 (fun i w => forall nm q s r s', get nm (Some (hi_hash i)) = Ok q -> warm P o (ts_dc s) ->
    preorder P get true f' c' q s = (r, s') -> wrote (fst w) (snd w) r s s') items ls) ->
  preorder P get true f c q s = (r', s') -> wrote (concat (map fst ls)) n r' s s'.
Proof.
  intros (cc & m & Hb & Ht & Hm & Hd) Hw Hit Pos -> HF H.
  assert (N0 : 0 <= zsum (map snd ls)) by (clear - Pos; induction Pos; [reflexivity|unfold zsum in *; cbn [map fold_right]; lia]).
  destruct f as [|f]; cbn [preorder] in H; [injection H as <- <-; apply wrote_nothing; [reflexivity|lia]|].
  unfold sbind at 1, smod in H. rewrite Hb, Ht in H. change (PT_MANIFEST =? PT_MANIFEST) with true in H. cbv beta iota in H.
  unfold sbind at 1, lift in H. rewrite Hm in H. set (s0 := mkTs (ts_count s + 1) (ts_out s) (ts_dc s)) in H.
  destruct (Hd s0 Hw) as (m2 & s1 & D & Hn & Hw1). unfold sbind at 1 in H. rewrite D in H. apply t_decrypt_sound in D as (C1 & O1 & _).
  cbn [s0 ts_count ts_out] in C1, O1. unfold sbind at 1, lift in H. destruct (update_nc_cache c m2) as [c2|e].
  2:{ injection H as <- <-. apply wrote_nothing; [exact O1|lia]. }
  unfold man_hash_values in H. rewrite Hn, Hit in H. unfold sbind at 1 in H.
  destruct (visit_children P get (preorder P get true f c2) c2 items s1) as [r2 s2] eqn:Ev.
  destruct (visit_wrote (preorder P get true f c2) c2 items ls _ (HF f c2) Pos eq_refl _ _ _ Hw1 Ev) as (a & e & E & O2 & C2 & W2).
  exists a, e. split; [exact E|]. destruct r2 as [[]|er]; injection H as <- <-; (split; [congruence|]; split; [lia|assumption || discriminate]).
Qed.

Definition chunk_work (i : Z) : list bytes * Z := ([piece l i], 1).
Lemma chunks_wrote is : Forall (fun i => 0 <= i < zlen meta) is -> forall f c,
  Forall2 (fun i w => forall nm q s r s', get nm (Some (hi_hash i)) = Ok q -> warm P o (ts_dc s) ->
    preorder P get true f c q s = (r, s') -> wrote (fst w) (snd w) r s s') (map (tg_hiv P v) (map TChunk is)) (map chunk_work is).
Proof.
  intros H f c. induction H as [|i is Hi _ IH]; [constructor|]. cbn [map]. constructor; [|exact IH].
  intros nm q s r' s' Hg Hw Hp. unfold chunk_work. cbn [fst snd]. eapply chunk_wrote; eassumption.
Qed.
Lemma chunk_work_sum is : zsum (map snd (map chunk_work is)) = zlen is.
Proof. induction is as [|i is IH]; [reflexivity|]. cbn [map]. rewrite zlen_cons, <- IH. unfold zsum. cbn [fold_right chunk_work snd]. lia. Qed.
Lemma chunk_work_pieces is : concat (map fst (map chunk_work is)) = map (piece l) is.
Proof. induction is as [|i is IH]; [reflexivity|]. cbn [map concat]. rewrite IH. reflexivity. Qed.
Lemma chunk_work_pos is : Forall (fun w : list bytes * Z => 0 <= snd w) (map chunk_work is).
Proof. apply Forall_forall. intros w H. apply in_map_iff in H as (i & <- & _). cbn. lia. Qed.
Lemma zsum_app a c : zsum (a ++ c) = zsum a + zsum c.
Proof. induction a as [|z a IH]; [reflexivity|]. unfold zsum in *. cbn [app fold_right]. lia. Qed.

Lemma tree_wrote u : forall l' f c q s r' s', wf P rnd now v l' u -> (forall w, In w (subtrees u) -> In (mi_pkt (top w)) new /\ node_wf (mi_node (top w))) ->
  same_content q (mi_pkt (top u)) -> warm P o (ts_dc s) -> preorder P get true f c q s = (r', s') ->
  wrote (map (piece l) (chunks u)) (zlen (infos u) + zlen (chunks u)) r' s s'.
Proof.
  pose proof (nctx_create_wf _ _ _ _ (su_ctx _ _ _ _ _ _ _ _ _ _ _ _ _ _ _ _ SU)) as Hx.
  pose proof (su_emits _ _ _ _ _ _ _ _ _ _ _ _ _ _ _ _ SU) as Hem.
  pose proof (emits_numbered P o x meta r l pkts Hem) as Hnum.
  induction u as [i lo hi|i lo hi kids IH] using tree_ind2; intros l' f c q s r' s' W HS HQ Hw H.
  - destruct (HS (Leaf i lo hi) (or_introl eq_refl)) as (_ & Hwf). cbn [top] in *.
    pose proof (wf_faithful P rnd now v l' _ Hx W) as (Hc & _ & _ & _). pose proof (node_items P rnd now v l' _ Hx Hnum W) as Hi.
    pose proof W as W'. apply wf_leaf in W' as (_ & _ & L & L' & _ & _). cbn [top targets] in *.
    assert (Forall (fun i => 0 <= i < zlen meta) (zrange lo hi)) as Fr.
    { apply Forall_forall. intros j Hj. apply zrange_in in Hj. change (zlen meta) with (zlen (te_meta v)). lia. }
    cbn [chunks infos]. rewrite <- chunk_work_pieces.
    eapply node_wrote; [eapply content_opens; eassumption|exact Hw|exact Hi|apply chunk_work_pos| |intros; now apply chunks_wrote|exact H].
    rewrite chunk_work_sum. reflexivity.
  - destruct (HS (Inner i lo hi kids) (or_introl eq_refl)) as (_ & Hwf). cbn [top] in *.
    pose proof (wf_faithful P rnd now v l' _ Hx W) as (Hc & _ & _ & _). pose proof (node_items P rnd now v l' _ Hx Hnum W) as Hi.
    pose proof W as W'. apply wf_inner in W' as (l2 & -> & _ & _ & L & (e & L' & Ee) & _ & _ & _ & _ & _ & WK). cbn [top targets] in *.
    assert (Forall (fun i => 0 <= i < zlen meta) (zrange lo hi)) as Fr.
    { apply Forall_forall. intros j Hj. apply zrange_in in Hj. change (zlen meta) with (zlen (te_meta v)). lia. }
    set (kw := map (fun u => (map (piece l) (chunks u), zlen (infos u) + zlen (chunks u))) kids).
    assert (KF : forall f c, Forall2 (fun i w => forall nm q s r s', get nm (Some (hi_hash i)) = Ok q -> warm P o (ts_dc s) ->
      preorder P get true f c q s = (r, s') -> wrote (fst w) (snd w) r s s') (map (tg_hiv P v) (map TKid kids)) kw).
    { intros f' c'. unfold kw. clear - IH WK HS Hx HC NP. cbn [subtrees] in HS.
      assert (HS' : forall w, In w (flat_map subtrees kids) -> In (mi_pkt (top w)) new /\ node_wf (mi_node (top w))) by (intros; apply HS; now right). clear HS.
      induction kids as [|u kids IHk]; [constructor|]. inversion IH as [|? ? IH1 IH2]; subst. inversion WK as [|? ? W1 W2]; subst.
      cbn [map flat_map] in *. constructor; [|apply IHk; auto; intros w Hin; apply HS'; apply in_app_iff; auto].
      intros nm q s r' s' Hg Hw Hp. cbn [fst snd tg_hiv hi_hash tg_hash] in *.
      pose proof (wf_faithful P rnd now v l2 _ Hx W1) as (_ & _ & Hh & _).
      eapply IH1; [exact W1| | |exact Hw|exact Hp].
      - intros w Hin. apply HS'. apply in_app_iff. now left.
      - eapply answer_same; [exact Hg| |exact Hh]. apply HS'. apply in_app_iff. left. apply subtrees_self. }
    assert (KP : concat (map fst kw) = map (piece l) (flat_map chunks kids)).
    { unfold kw. clear. induction kids as [|u kids IHk]; [reflexivity|]. cbn [map concat flat_map fst]. rewrite IHk, map_app. reflexivity. }
    assert (KS : zsum (map snd kw) = zlen (flat_map infos kids) + zlen (flat_map chunks kids)).
    { unfold kw. clear. induction kids as [|u kids IHk]; [reflexivity|]. cbn [map flat_map]. rewrite !zlen_app.
      change (zsum (snd (map (piece l) (chunks u), zlen (infos u) + zlen (chunks u)) :: map snd (map (fun u0 => (map (piece l) (chunks u0), zlen (infos u0) + zlen (chunks u0))) kids)))
        with (zlen (infos u) + zlen (chunks u) + zsum (map snd (map (fun u0 => (map (piece l) (chunks u0), zlen (infos u0) + zlen (chunks u0))) kids))). lia. }
    assert (KN : Forall (fun w : list bytes * Z => 0 <= snd w) kw).
    { apply Forall_forall. intros w Hin. unfold kw in Hin. apply in_map_iff in Hin as (u & <- & _). cbn [snd].
      pose proof (zlen_nonneg (infos u)). pose proof (zlen_nonneg (chunks u)). lia. }
    cbn [chunks infos]. fold (forest_infos kids). rewrite map_app, <- chunk_work_pieces, <- KP, <- concat_app, <- map_app.
    eapply node_wrote; [eapply content_opens; eassumption|exact Hw|exact Hi| | | |exact H].
    + apply Forall_app. split; [apply chunk_work_pos|exact KN].
    + rewrite map_app, zsum_app, chunk_work_sum, KS, !zlen_app. change (zlen [i]) with 1.
      assert (zlen (forest_infos kids) = zlen (flat_map infos kids)) as ->; [|lia].
      clear. unfold forest_infos. induction kids as [|u kids IHk]; [reflexivity|].
      cbn [map rev flat_map]. rewrite concat_app, !zlen_app, IHk. cbn [concat]. rewrite app_nil_r. lia.
    + intros f' c'. rewrite map_app. apply Forall2_app; [now apply chunks_wrote|apply KF].
Qed.

Lemma root_wrote nm hr fuel r' s' : packet_hash (pr_sha P) root = Ok hr ->
  traverse P get true fuel nm (Some hr) (tst_new P ks) = (r', s') ->
  exists a c, l = a ++ c /\ ts_out s' = a /\ ts_count s' <= zlen new /\ (r' = Ok tt -> c = []).
Proof.
  intros Hhr H. pose proof (su_emits _ _ _ _ _ _ _ _ _ _ _ _ _ _ _ _ SU) as Hem.
  pose proof (nctx_create_wf _ _ _ _ (su_ctx _ _ _ _ _ _ _ _ _ _ _ _ _ _ _ _ SU)) as Hx.
  assert (LEN : zlen new = 1 + (zlen (infos t) + zlen (chunks t))).
  { unfold new. rewrite !zlen_app, zlen_map, (rs_chunks _ _ _ _ _ _ _ _ _ _ RS), zrange_len.
    change (zlen [root]) with 1. change (zlen (te_meta v)) with (zlen meta).
    pose proof (emits_count P o _ _ _ _ _ Hem (su_first _ _ _ _ _ _ _ _ _ _ _ _ _ _ _ _ SU)) as (_ & L). unfold zlen in *. lia. }
  pose proof (zlen_nonneg (infos t)) as N1. pose proof (zlen_nonneg (chunks t)) as N2.
  assert (NW : forall e (s : tst P), ts_out s = [] -> ts_count s <= 1 -> exists a c, l = a ++ c /\ ts_out s = a /\ ts_count s <= zlen new /\ (@Err unit e = Ok tt -> c = [])).
  { intros e s O C. exists [], l. repeat split; auto; [lia|discriminate]. }
  unfold traverse, sbind at 1, lift in H. destruct (get nm (Some hr)) as [q|e] eqn:Eg.
  2:{ injection H as <- <-. apply NW; [reflexivity|cbn; lia]. }
  unfold sbind at 1 in H. destruct (validate P q (tst_new P ks)) as [[[]|e] s1] eqn:Ev.
  2:{ unfold validate, sbind, sget, lift in Ev. injection Ev as Ev <-. injection H as <- <-. apply NW; [reflexivity|cbn; lia]. }
  assert (s1 = tst_new P ks) as -> by (unfold validate, sbind, sget, lift in Ev; destruct (validate_packet _ _ _); congruence).
  destruct (answer_same nm hr q root Eg) as (cc & c' & Hcc & Hc' & Ht & Hp); [unfold new; rewrite !in_app_iff; right; right; now left|exact Hhr|].
  destruct (enc_ok P o ks Hopen) as (E1 & E2).
  apply root_inv in RP as (h & m & w & Hh & Hm & Hw & _ & _ & Hb & _). rewrite Hb in Hcc. injection Hcc as <-. cbn [co_ptype co_payload] in Ht, Hp.
  pose proof (root_node_wf P clog rnd now o nc data Hmax Hnc k k' x ps l pkts meta num r SU h) as Hn.
  assert (manifest_of_node o (root_node o x (zlen data) h) m) as Hm'.
  { unfold root_manifest in Hm. unfold manifest_of_node. destruct (op_enc o); eauto. }
  destruct (received P o _ m w E1 E2 Hm' Hn Hw) as (m' & D & Em).
  destruct fuel as [|f]; cbn [preorder] in H; [injection H as <- <-; apply NW; [reflexivity|cbn; lia]|].
  unfold sbind at 1, smod in H. rewrite Hc', Ht in H. change (PT_MANIFEST =? PT_MANIFEST) with true in H. cbv beta iota in H.
  unfold sbind at 1, lift, man_from_content in H. rewrite Ht, Hp in H. change (PT_MANIFEST =? PT_MANIFEST) with true in H. cbn [guard bind] in H. rewrite D in H.
  set (s0 := mkTs (ts_count (tst_new P ks) + 1) (ts_out (tst_new P ks)) (ts_dc (tst_new P ks))) in H.
  destruct (open_cold P o Ha Ho rnd ks _ _ m m' Hopen Hm Hn Em s0 eq_refl) as (m2 & s1 & Hd & Hn2 & Hw1).
  unfold sbind at 1 in H. rewrite Hd in H. apply t_decrypt_sound in Hd as (C1 & O1 & _). cbn [s0 ts_count ts_out tst_new] in C1, O1.
  unfold sbind at 1, lift in H. destruct (update_nc_cache [] m2) as [c2|e].
  2:{ injection H as <- <-. apply NW; [exact O1|lia]. }
  unfold man_hash_values in H. rewrite Hn2 in H. cbn [node_norm root_node n_groups] in H.
  assert (node_iter [mkHG (Some (mkGD (keep (op_gsize o) (Some (zlen data))) None None None (Some (im_nc (nx_man x)))
             (if uses_name_id (nx_man x) then Some 0 else None))) (Some [h])] = ([root_item x h], None)) as Ei.
  { unfold root_item. cbn [node_iter hg_ptrs hg_data group_iter gd_nc_id]. unfold segment_id. cbn [gd_start].
    destruct (uses_name_id (nx_man x)); reflexivity. }
  rewrite Ei in H. clear Ei. unfold sbind at 1 in H.
  destruct (visit_children P get (preorder P get true f c2) c2 [root_item x h] s1) as [r2 s2] eqn:Evis.
  assert (wrote (concat (map fst [(map (piece l) (chunks t), zlen (infos t) + zlen (chunks t))])) (zlen (infos t) + zlen (chunks t)) r2 s1 s2) as Wr.
  { eapply visit_wrote; [|constructor; [cbn [snd]; lia|constructor]|unfold zsum; cbn [map snd fold_right]; lia|exact Hw1|exact Evis].
    constructor; [|constructor]. intros nm0 q0 s3 r3 s4 Hg0 Hw3 Hp3. cbn [root_item hi_hash fst snd] in *.
    eapply tree_wrote; [apply (rs_wf _ _ _ _ _ _ _ _ _ _ RS)| | |exact Hw3|exact Hp3].
    - pose proof (all_nodes_wf P clog rnd now o nc data Hmax Hnc k k' x ps l pkts meta num r SU out np b lv t RS) as Nw.
      rewrite Forall_forall in Nw. intros u Hu. split; [|apply Nw; exact Hu]. unfold new. rewrite !in_app_iff. right. left.
      apply in_map. apply (Permutation_in _ (Permutation_sym (infos_subtrees t))). apply in_map. exact Hu.
    - eapply answer_same; [exact Hg0| |exact Hh]. unfold new. rewrite in_app_iff. right. rewrite in_app_iff. left. apply in_map. rewrite <- order_infos. apply in_map. apply order_self. }
  cbn [map fst concat] in Wr. rewrite app_nil_r in Wr.
  rewrite (rs_chunks _ _ _ _ _ _ _ _ _ _ RS) in Wr at 1. rewrite map_piece in Wr by (apply count_bound with (1 := SU)).
  destruct Wr as (a & c & E & O2 & C2 & W2). exists a, c. split; [exact E|]. rewrite O1 in O2.
  destruct r2 as [[]|e]; injection H as <- <-; (split; [exact O2|]; split; [lia|]).
  - intros _. exact (proj1 (W2 eq_refl)).
  - discriminate.
Qed.
End Integrity.

(** * C59: a receiver that starts from the hash of the root manifest *)

(* Whatever the reader does, short of finding a second preimage: what has been
   written is an initial part of the file, and all of it if the traversal ends
   without an exception.  No packet is visited twice. *)
Lemma built_integrity : forall P clog rnd now (o : opts P) nc data s root s' ks get nm hr fuel r st,
  log_ok clog -> op_max o <= 2 ^ 24 -> nc + 1 < 2 ^ 64 -> aead_correct P -> oaep_correct P -> can_open o ks ->
  whole_build P clog rnd now o nc data s root s' -> packet_hash (pr_sha P) root = Ok hr ->
  hash_checked P get -> no_second_preimage P (ms_out s') get ->
  traverse P get true fuel nm (Some hr) (tst_new P ks) = (r, st) ->
  exists rest, data = concat (ts_out st) ++ rest /\ (r = Ok tt -> rest = []) /\
    ts_count st <= zlen (ms_out s') - zlen (ms_out s).
Proof.
  intros P clog rnd now o nc data s root s' ks get nm hr fuel r st HL HM Hnc Ha Ho Hopen H Hhr HC NP Ht.
  destruct H as (k' & x & ps & l & pkts & meta & num & r0 & lv & t & np & b & k2 & SU & RS & RP & ->).
  cbn [ms_out] in *.
  assert (NP' : no_second_preimage P (pkts ++ map mi_pkt (infos t) ++ [root]) get).
  { intros n h q p Hg Hp. apply (NP n h q p Hg). apply in_app_iff. now right. }
  destruct (root_wrote P Ha Ho clog rnd now o nc data HM Hnc _ _ _ _ _ _ _ _ _ SU _ _ _ _ _ RS _ _ root RP get ks Hopen HC NP' nm hr fuel r st Hhr Ht)
    as (a & c & E & Eo & Ec & Er).
  pose proof (su_cut _ _ _ _ _ _ _ _ _ _ _ _ _ _ _ _ SU) as Hcut.
  exists (concat c). split; [symmetry; rewrite Eo; transitivity (concat l); [rewrite E; symmetry; apply concat_app|apply Hcut]|]. split.
  - intros R. rewrite (Er R). reflexivity.
  - rewrite (zlen_app (ms_out s)). lia.
Qed.
Theorem C59_integrity : forall P clog rnd now (o : opts P) nc data s root s' ks get nm hr fuel r st,
  log_ok clog -> op_max o <= 2 ^ 24 -> nc + 1 < 2 ^ 64 -> aead_correct P -> oaep_correct P -> can_open o ks ->
  manifest_tree P clog rnd now o nc data s = (Ok root, s') -> packet_hash (pr_sha P) root = Ok hr ->
  hash_checked P get -> no_second_preimage P (ms_out s') get ->
  traverse P get true fuel nm (Some hr) (tst_new P ks) = (r, st) ->
  exists rest, data = concat (ts_out st) ++ rest /\ (r = Ok tt -> rest = []) /\
    ts_count st <= zlen (ms_out s') - zlen (ms_out s).
Proof.
  intros P clog rnd now o nc data s root s' ks get nm hr fuel r st HL HM Hnc Ha Ho Hopen H Hhr HC NP Ht. eapply built_integrity; try eassumption. eapply manifest_tree_ok; eassumption.
Qed.

(* The memory stores check hashes, whatever packets they hold. *)
Lemma check_name_packet nm p q : check_name nm p = Ok q -> q = p.
Proof.
  unfold check_name. destruct (body_name p); [|congruence]. intros H. inv_bind H. inv_bind H. congruence.
Qed.
Theorem C59_memory_checks : forall P ps m, foldM (mem_put P) mem_new ps = Ok m -> hash_checked P (mem_get (me_hash m)).
Proof.
  intros P ps m H nm h q Hg. apply minv_puts in H. pose proof (mi_get _ _ _ H h) as G. unfold mem_get in Hg.
  destruct (dict_get hashv_key_eqb h (me_hash m)) as [p|]; [|discriminate].
  apply check_name_packet in Hg. subst q. destruct G as (? & ? & _ & E & _); exact E.
Qed.
Theorem C59_list_checks : forall P ps d, mem_reader P ps = Ok d -> hash_checked P (mem_get d).
Proof.
  intros P ps d H nm h q Hg. pose proof (mem_reader_get P ps d H h) as G. unfold mem_get in Hg.
  destruct (dict_get hashv_key_eqb h d) as [p|]; [|discriminate].
  apply check_name_packet in Hg. subst q. destruct G as (? & ? & _ & E & _); exact E.
Qed.

(* PacketDirectoryReader does not check: with one data object's file replaced
   by another's, the traversal of a signed and encrypted manifest ends well and
   has written something else. *)
Definition ex_dopt : dwopt toy := mkDO toy true (Some (SRsa (P := toy) 7)) false (mkFl 0 0).
Definition ex_built (o : opts toy) (data : bytes) : res (packet * list packet) :=
  match manifest_tree toy exact_log (ex_nonce o) (mkFl 0 0) o 1 data (mkMst [] 0) with
  | (Ok root, s) => Ok (root, ms_out s)
  | (Err e, _) => Err e
  end.
Definition ex_files (ps : list packet) : files := dw_files (dir_puts toy ex_uri ex_dopt ps (mkDW [] [] 0 0 0 0 0 0)).
Definition ex_swapped (o : opts toy) (ks : option (keystore toy)) (data : bytes) : option (option exn * bool) :=
  match ex_built o data with
  | Ok (root, p :: q :: ps) =>
    match packet_hash (pr_sha toy) root, packet_hash (pr_sha toy) p, packet_wire q with
    | Ok hr, Ok h, Ok w =>
      let d := dict_set (hash_path false h) w (ex_files (p :: q :: ps)) in
      let '(r, t) := traverse toy (dir_get ex_uri (mkFl 0 0) d) true 20 (op_name o) (Some hr) (tst_new toy ks) in
      Some (match r with Ok _ => None | Err e => Some e end, beqb (concat (ts_out t)) data)
    | _, _, _ => None
    end
  | _ => None
  end.
Theorem C59_directory_refuted : exists (o : opts toy) ks data root s hr p h w d st,
  equipped o ks /\
  manifest_tree toy exact_log (ex_nonce o) (mkFl 0 0) o 1 data (mkMst [] 0) = (Ok root, s) /\
  packet_hash (pr_sha toy) root = Ok hr /\
  In p (ms_out s) /\ packet_hash (pr_sha toy) p = Ok h /\ d = dict_set (hash_path false h) w (ex_files (ms_out s)) /\
  traverse toy (dir_get ex_uri (mkFl 0 0) d) true 20 (op_name o) (Some hr) (tst_new toy ks) = (Ok tt, st) /\
  concat (ts_out st) <> data.
Proof.
  assert (E : ex_swapped (ex_secret Hashed 400) (Some ex_store) (ex_bytes 800) = Some (None, false)) by (vm_compute; reflexivity).
  assert (Q : equipped (ex_secret Hashed 400) (Some ex_store)) by apply ex_equipped.
  revert E Q. generalize (ex_secret Hashed 400) (Some ex_store) (ex_bytes 800). intros o ks data E Q. unfold ex_swapped, ex_built in E.
  destruct (manifest_tree _ _ _ _ _ _ _ _) as [[root|] s] eqn:Em; [|discriminate]. cbv beta iota in E.
  destruct (ms_out s) as [|p [|q ps]] eqn:Eo; [discriminate|discriminate|].
  destruct (packet_hash _ root) as [hr|] eqn:Er; [|discriminate]. destruct (packet_hash _ p) as [h|] eqn:Ep; [|discriminate].
  destruct (packet_wire q) as [w|] eqn:Eq; [|discriminate]. cbv zeta in E. destruct (traverse _ _ _ _ _ _ _) as [r t] eqn:Et.
  exists o, ks, data, root, s, hr, p, h, w. eexists. exists t. split; [exact Q|]. split; [exact Em|]. split; [exact Er|].
  rewrite Eo. split; [now left|]. split; [exact Ep|]. split; [reflexivity|].
  destruct r as [[]|]; [|discriminate]. split; [exact Et|]. intros X. rewrite X in E.
  replace (beqb data data) with true in E by (symmetry; apply beqb_spec; reflexivity). discriminate.
Qed.

(* Memory stores of the build: complete, without one data object, without one
   manifest, and with the packets of another build mixed in: error, bytes
   written, whether they begin the file, no packet collides with the build. *)
Definition ex_begin (a b : bytes) : bool := beqb a (ztake (zlen a) b).
Definition ex_store_of (o : opts toy) (ks : option (keystore toy)) (data : bytes) (drop : nat -> bool) (more : list packet) : option (option exn * Z * bool * Z * bool) :=
  match ex_built o data with
  | Ok (root, ps) =>
    let kept := more ++ map snd (filter (fun x => negb (drop (fst x))) (combine (seq 0 (length ps)) ps)) in
    match packet_hash (pr_sha toy) root, foldM (mem_put toy) mem_new kept with
    | Ok hr, Ok m =>
      let '(r, t) := traverse toy (mem_get (me_hash m)) true 20 (op_name o) (Some hr) (tst_new toy ks) in
      Some (match r with Ok _ => None | Err e => Some e end, zlen (concat (ts_out t)), ex_begin (concat (ts_out t)) data, ts_count t,
        ex_same kept ps)
    | _, _ => None
    end
  | _ => None
  end.
Definition ex_packets (o : opts toy) (data : bytes) : list packet :=
  match ex_built o data with Ok (_, ps) => ps | Err _ => [] end.
Definition ex_mixed (drop : nat -> bool) (mix : bool) : option (option exn * Z * bool * Z * bool) :=
  ex_store_of (ex_secret Hashed 400) (Some ex_store) (ex_bytes 1300) drop (if mix then ex_packets (ex_deg Hashed None) (repeat 9 200) else []).
Example C59_ex :
  can_open (ex_secret Hashed 400) (Some ex_store) /\
  ex_mixed (fun _ => false) false = Some (None, 1300, true, 6, true) /\
  ex_mixed (fun _ => false) true = Some (None, 1300, true, 6, true) /\
  ex_mixed (Nat.eqb 2) true = Some (Some KeyError, 758, true, 4, true) /\
  ex_mixed (Nat.eqb 4) true = Some (Some KeyError, 0, true, 1, true).
Proof.
  split; [apply ex_equipped|].
  split; [vm_compute; reflexivity|]. split; [vm_compute; reflexivity|]. split; vm_compute; reflexivity.
Qed.
Print Assumptions C59_integrity.
Print Assumptions C59_memory_checks.
Print Assumptions C59_list_checks.
Print Assumptions C59_directory_refuted.
