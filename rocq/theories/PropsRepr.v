(* C76: printing packets and manifests. *)
From Coq Require Import ZArith List Bool Lia ZifyBool Permutation.
From Verif Require Import Py Tlv Spec WireSpec Float FloatProofs Core TlvProofs CoreProofs PropsCore Flic FlicProofs PropsFlic Crypto CryptoProofs
  PropsCrypto Optimizer OptimizerProofs Tree TreeSpec TreeProofs TreeFacts PropsOptimizer PropsTree ChunkProofs SizeProofs
  PropsChunk BuildProofs Store StoreSpec StoreProofs PropsStore Traversal TraversalSpec TraversalProofs EndSpec EndProofs
  ReadProofs PropsEnd PropsDir Uri PropsUri Apps PropsApps PropsNames PropsOptions Repr.
Import ListNotations.
Open Scope Z_scope.
Opaque tlv_make tlv_wire tlv_deserialize.

(* ---------------- specification ---------------- *)

(* Python writes integers of at most 4300 digits. *)
Definition legible_number (n : Z) : Prop := Z.abs n < 10 ^ 4300.
Definition legible_numbers (l : list (option Z)) : Prop := forall n, In (Some n) l -> legible_number n.
(* A name segment must be the UTF-8 form of a text; the number of a chunk id
   (5) or a manifest id (16) must be legible; other components always are. *)
Definition legible_comp (c : comp) : Prop :=
  (c_type c = 1 -> c_kind c = KBytes /\ exists t, utf8_encode t = Ok (c_val c)) /\
  (c_type c = 5 \/ c_type c = 16 -> legible_number (array_to_number (c_val c))).
Definition legible_link (l : link) : Prop := forall n, l_name l = Some n -> Forall legible_comp n.
Definition legible_links (o : option (list link)) : Prop := forall l, o = Some l -> Forall legible_link l.
Definition legible_def (d : ncdef) : Prop :=
  legible_numbers [nd_id d] /\ forall s, nd_schema d = Some s -> legible_links (schema_locators s).
Definition legible_group (g : hgroup) : Prop :=
  hg_ptrs g <> None /\
  forall d, hg_data g = Some d -> legible_numbers [gd_subtree_size d; gd_leaf_size d; gd_nc_id d; gd_start d].
Definition legible_node (n : node) : Prop :=
  Forall legible_group (n_groups n) /\
  forall d, n_data n = Some d ->
    legible_numbers [nd_size d] /\ legible_links (nd_locators d) /\ Forall legible_def (nd_ncdefs d).
Definition legible_wrapper (w : wrapper) : Prop :=
  (forall l, w_keylink w = Some l -> legible_link l) /\ legible_numbers [w_hashalg w].
Definition legible_ctx (c : secctx) : Prop :=
  legible_number (a_keynum (ctx_aead c)) /\
  (forall m, a_mode (ctx_aead c) = Some m -> 1 <= m <= 4) /\
  (forall k, a_kdf (ctx_aead c) = Some k -> legible_number (k_alg k)) /\
  (forall a w, c = CRsa a (Some w) -> legible_wrapper w).
Definition legible_manifest (m : manifest) : Prop :=
  (forall c, m_ctx m = Some c -> legible_ctx c) /\ (forall n, m_node m = MNode n -> legible_node n).
(* before the end of the year 2^31 + 1899 *)
Definition legible_time (f : fl) : Prop := fl_num f < 67768036191676800 * fl_den f.
Definition legible_payload (brief : bool) (c : content) : Prop :=
  match co_ptype c with
  | Some 3 => exists b, co_payload c = Some b /\
      (man_deserialize b = Err ParseError \/ exists m, man_deserialize b = Ok m /\ legible_manifest m)
  | Some 2 => exists b l, co_payload c = Some b /\ link_deserialize b = Ok l /\ legible_link l
  | _ => brief = true -> co_payload c <> None
  end.
Definition legible_content (brief : bool) (c : content) : Prop :=
  legible_payload brief c /\ (forall n, co_name c = Some n -> Forall legible_comp n) /\
  (forall f, co_expiry c = Some f -> legible_time f) /\ legible_numbers [co_fcid c].
Definition legible_packet (brief : bool) (p : packet) : Prop :=
  (forall c, p_body p = BCO c -> legible_content brief c) /\
  (forall kid pk kl st, p_alg p = Some (VRsa kid pk kl st) -> legible_time st /\ forall l, kl = Some l -> legible_link l).

(* ---------------- proofs ---------------- *)

Lemma then_ok (m k : res unit) : (_ <- m ;; k) = Ok tt <-> m = Ok tt /\ k = Ok tt.
Proof. destruct m as [[]|]; cbn [bind]; intuition discriminate. Qed.
Lemma opt_repr_ok {A} (f : A -> res unit) o : opt_repr f o = Ok tt <-> forall a, o = Some a -> f a = Ok tt.
Proof. destruct o; cbn; split; auto; [intros ? ? [= <-]; auto|discriminate]. Qed.
Lemma mapM_unit_iff {A} (f : A -> res unit) l : (exists r, mapM f l = Ok r) <-> Forall (fun a => f a = Ok tt) l.
Proof.
  split; [|intros H; apply mapM_unit; rewrite Forall_forall in H; exact H].
  induction l as [|a l IH]; intros (r & H); [constructor|]. cbn [mapM] in H.
  apply bind_ok in H as ([] & E & H). apply bind_ok in H as (r' & E' & _). constructor; eauto.
Qed.
Lemma list_repr_ok {A} (f : A -> res unit) l : list_repr f l = Ok tt <-> Forall (fun a => f a = Ok tt) l.
Proof.
  rewrite <- mapM_unit_iff. unfold list_repr. split.
  - intros H. apply bind_ok in H as (r & H & _). eauto.
  - intros (r & ->). reflexivity.
Qed.
Lemma Forall_iff {A} (R S : A -> Prop) l : (forall a, R a <-> S a) -> Forall R l <-> Forall S l.
Proof. intros H. split; apply Forall_impl; intros a; apply H. Qed.
Lemma Forall_both {A} (R S : A -> Prop) l : Forall (fun a => R a /\ S a) l <-> Forall R l /\ Forall S l.
Proof. rewrite !Forall_forall. split; [intros H; split; intros a I; apply H, I|intros (H & H') a I; auto]. Qed.
Lemma number_ok n : int_text n = Ok tt <-> legible_number n.
Proof. apply int_text_ok. Qed.
Lemma numbers_cons o l : legible_numbers (o :: l) <-> opt_repr int_text o = Ok tt /\ legible_numbers l.
Proof.
  rewrite opt_repr_ok. unfold legible_numbers. cbn [In]. split.
  - intros H. split; [intros n ->; apply number_ok; auto|auto].
  - intros (H & H') n [E|I]; [apply number_ok; auto|auto].
Qed.
Lemma numbers_nil : legible_numbers [] <-> True.
Proof. split; [auto|intros _ n []]. Qed.

(* UTF-8: what the decoder of the model accepts is the encoding of a text *)
Lemma utf8_encodes b : utf8 b = true <-> exists t, utf8_encode t = Ok b.
Proof.
  split.
  - enough (forall n b, (length b <= n)%nat -> utf8 b = true -> exists t, utf8_decode b = Ok t) as H.
    { intros U. destruct (H (length b) b (le_n _) U) as (t & E). exists t. now apply C63_utf8_decode. }
    clear b. induction n as [|n IH]; intros b L U; [destruct b; [eexists; reflexivity|cbn in L; lia]|].
    destruct b as [|x b]; [eexists; reflexivity|]. cbn [length] in L. cbn [utf8] in U. unfold Traversal.cont in U.
    destruct ((0 <=? x) && (x <=? 127)) eqn:E1.
    { destruct (IH b ltac:(lia) U) as (t & E). cbn [utf8_decode]. replace ((0 <=? x) && (x <? 128)) with true by lia. rewrite E. eexists; reflexivity. }
    destruct ((194 <=? x) && (x <=? 223)) eqn:E2.
    { destruct b as [|y b]; [discriminate|]. cbn [length] in L. apply andb_true_iff in U as (Y & U). destruct (IH b ltac:(lia) U) as (t & E).
      cbn [utf8_decode]. replace ((0 <=? x) && (x <? 128)) with false by lia. unfold Uri.cont.
      replace ((128 <=? y) && (y <? 192)) with true by lia. replace ((194 <=? x) && (x <? 224)) with true by lia. cbn [negb].
      rewrite E. eexists; reflexivity. }
    destruct ((224 <=? x) && (x <=? 239)) eqn:E3.
    { destruct b as [|y [|z b]]; try discriminate. cbn [length] in L. apply andb_true_iff in U as (Y & U). apply andb_true_iff in Y as (Y & Z).
      destruct (IH b ltac:(lia) U) as (t & E). cbn [utf8_decode]. replace ((0 <=? x) && (x <? 128)) with false by lia. unfold Uri.cont.
      replace ((128 <=? y) && (y <? 192)) with true by (destruct (x =? 224), (x =? 237); lia). replace ((194 <=? x) && (x <? 224)) with false by lia.
      replace ((128 <=? z) && (z <? 192)) with true by lia. replace ((224 <=? x) && (x <? 240)) with true by lia. cbn [negb].
      rewrite E. unfold scalar.
      match goal with |- context [if ?b then _ else _] => replace b with true by (destruct (x =? 224) eqn:X1, (x =? 237) eqn:X2; lia) end.
      eexists; reflexivity. }
    destruct ((240 <=? x) && (x <=? 244)) eqn:E4; [|discriminate].
    destruct b as [|y [|z [|w b]]]; try discriminate. cbn [length] in L. apply andb_true_iff in U as (Y & U). apply andb_true_iff in Y as (Y & W).
    apply andb_true_iff in Y as (Y & Z).
    destruct (IH b ltac:(lia) U) as (t & E). cbn [utf8_decode]. replace ((0 <=? x) && (x <? 128)) with false by lia. unfold Uri.cont.
    replace ((128 <=? y) && (y <? 192)) with true by (destruct (x =? 240), (x =? 244); lia). replace ((194 <=? x) && (x <? 224)) with false by lia.
    replace ((128 <=? z) && (z <? 192)) with true by lia. replace ((224 <=? x) && (x <? 240)) with false by lia.
    replace ((128 <=? w) && (w <? 192)) with true by lia. replace ((240 <=? x) && (x <? 245)) with true by lia. cbn [negb].
    rewrite E. unfold scalar.
    match goal with |- context [if ?b then _ else _] => replace b with true by (destruct (x =? 240) eqn:X1, (x =? 244) eqn:X2; lia) end.
    eexists; reflexivity.
  - intros (t & E). apply C63_utf8_encode in E. now apply utf8_decodes in E.
Qed.

Lemma comp_repr_ok c : Traversal.comp_repr c = Ok tt <-> legible_comp c.
Proof.
  unfold Traversal.comp_repr, legible_comp. destruct (c_type c =? T_NAMESEGMENT) eqn:T; unfold T_NAMESEGMENT, T_CHUNKID, T_MANIFESTID in *.
  - destruct (c_kind c).
    + split; [discriminate|]. intros (H & _). destruct H as (H & _); [lia|discriminate].
    + rewrite guard_ok, utf8_encodes. split; [intros H; split; [auto|lia]|]. intros (H & _). apply H. lia.
  - destruct ((c_type c =? 5) || (c_type c =? 16)) eqn:E.
    + rewrite number_ok. split; [intros H; split; [lia|auto]|]. intros (_ & H). apply H. lia.
    + split; [|reflexivity]. intros _. split; lia.
Qed.
Lemma comps_repr_ok n : name_repr n = Ok tt <-> Forall legible_comp n.
Proof. unfold name_repr. rewrite list_repr_ok. apply Forall_iff, comp_repr_ok. Qed.
Lemma link_repr_ok l : link_repr l = Ok tt <-> legible_link l.
Proof.
  unfold link_repr, legible_link. destruct (l_name l) as [n|].
  - change (_ <- mapM Traversal.comp_repr n ;; Ok tt) with (name_repr n). rewrite comps_repr_ok. split; [intros H m [= <-]; exact H|auto].
  - split; [discriminate|reflexivity].
Qed.
Lemma links_repr_ok o : opt_repr (list_repr link_repr) o = Ok tt <-> legible_links o.
Proof.
  rewrite opt_repr_ok. unfold legible_links. split; intros H l E; apply H in E.
  - apply list_repr_ok in E. revert E. apply Forall_impl. intros a. apply link_repr_ok.
  - apply list_repr_ok. revert E. apply Forall_impl. intros a. apply link_repr_ok.
Qed.
Lemma schema_repr_ok s : schema_repr s = Ok tt <-> legible_links (schema_locators s).
Proof. rewrite <- links_repr_ok. destruct s; reflexivity. Qed.
Lemma def_repr_ok d : ncdef_repr d = Ok tt <-> legible_def d.
Proof.
  unfold ncdef_repr, legible_def. rewrite then_ok, numbers_cons, numbers_nil, (opt_repr_ok schema_repr).
  split; intros (A & B); (split; [intuition|]); intros s E; apply schema_repr_ok; auto.
Qed.
Lemma hashes_ok gs : (exists r, node_hash_values gs = Ok r) <-> Forall (fun g => hg_ptrs g <> None) gs.
Proof.
  induction gs as [|g gs IH]; cbn [node_hash_values].
  - split; [constructor|eauto].
  - destruct (hg_ptrs g) as [ps|] eqn:E.
    + split.
      * intros (r & H). apply bind_ok in H as (r' & H & _). constructor; [congruence|]. apply IH. eauto.
      * intros H. inversion H as [|? ? _ H']; subst. apply IH in H' as (r & ->). cbn. eauto.
    + split; [intros (r & [=])|]. intros H. inversion H; congruence.
Qed.
Lemma gd_repr_ok d : gd_repr d = Ok tt <-> legible_numbers [gd_subtree_size d; gd_leaf_size d; gd_nc_id d; gd_start d].
Proof. unfold gd_repr. rewrite !then_ok, !numbers_cons, numbers_nil. tauto. Qed.
Lemma node_repr_ok n : node_repr n = Ok tt <-> legible_node n.
Proof.
  assert (N : forall k : res unit, (_ <- node_hash_values (n_groups n) ;; k) = Ok tt <->
    Forall (fun g => hg_ptrs g <> None) (n_groups n) /\ k = Ok tt).
  { intros k. rewrite <- hashes_ok. split; [intros H; apply bind_ok in H as (r & H & H'); eauto|]. intros ((r & ->) & H). exact H. }
  unfold node_repr, legible_node. rewrite N, then_ok, list_repr_ok, opt_repr_ok.
  assert (G : Forall legible_group (n_groups n) <->
    Forall (fun g => hg_ptrs g <> None) (n_groups n) /\ Forall (fun g => hg_repr g = Ok tt) (n_groups n)).
  { rewrite <- Forall_both. apply Forall_iff. intros g. unfold legible_group, hg_repr. rewrite opt_repr_ok.
    split; intros (A & B); (split; [exact A|]); intros d E; apply gd_repr_ok; auto. }
  assert (D : forall d, nd_repr d = Ok tt <-> legible_numbers [nd_size d] /\ legible_links (nd_locators d) /\ Forall legible_def (nd_ncdefs d)).
  { intros d. unfold nd_repr. rewrite !then_ok, numbers_cons, numbers_nil, links_repr_ok, list_repr_ok, (Forall_iff _ legible_def) by apply def_repr_ok. tauto. }
  rewrite G. split.
  - intros (A & B & C). split; [auto|]. intros d E. apply D; auto.
  - intros ((A & B) & C). split; [exact A|]. split; [|exact B]. intros d E. apply D; auto.
Qed.
Lemma ctx_repr_ok c : ctx_repr c = Ok tt <-> legible_ctx c.
Proof.
  assert (A : forall a, aead_repr a = Ok tt <-> legible_number (a_keynum a) /\ (forall m, a_mode a = Some m -> 1 <= m <= 4) /\
    (forall k, a_kdf a = Some k -> legible_number (k_alg k))).
  { intros a. unfold aead_repr. rewrite !then_ok, number_ok, !opt_repr_ok. unfold mode_repr, kdf_repr.
    split; intros (X & Y & Z); (split; [exact X|split]).
    - intros m E. apply Y in E. apply guard_ok in E. lia.
    - intros k E. apply number_ok; auto.
    - intros m E. apply Y in E. apply guard_ok. lia.
    - intros k E. apply number_ok; auto. }
  assert (W : forall w, wrapper_repr w = Ok tt <-> legible_wrapper w).
  { intros w. unfold wrapper_repr, legible_wrapper. rewrite then_ok, numbers_cons, numbers_nil, (opt_repr_ok link_repr).
    split; intros (X & Y); (split; [|tauto]); intros l E; apply link_repr_ok; auto. }
  unfold legible_ctx. destruct c as [a|a w]; cbn [ctx_repr ctx_aead].
  - rewrite A. intuition discriminate.
  - rewrite then_ok, A, opt_repr_ok. split.
    + intros ((X & Y & Z) & V). repeat (split; [assumption|]). intros a' w' [= <- ->]. apply W, V. reflexivity.
    + intros (X & Y & Z & V). split; [auto|]. intros w' ->. apply W. eapply V; reflexivity.
Qed.
Lemma man_repr_ok m : man_repr m = Ok tt <-> legible_manifest m.
Proof.
  unfold man_repr, legible_manifest. rewrite then_ok, opt_repr_ok. split; intros (A & B).
  - split; [intros c E; apply ctx_repr_ok; auto|]. intros n E. rewrite E in B. now apply node_repr_ok.
  - split; [intros c E; apply ctx_repr_ok; auto|]. destruct (m_node m) as [n|]; [|reflexivity]. apply node_repr_ok. auto.
Qed.
Lemma den_pos f : 0 < fl_den f.
Proof. unfold fl_den. apply Z.pow_pos_nonneg; lia. Qed.
Lemma ts_repr_ok f : ts_repr f = Ok tt <-> legible_time f.
Proof.
  unfold ts_repr, legible_time, fl_trunc, TIME_T_END, GMTIME_LAST. pose proof (den_pos f) as D.
  assert (fl_num f < 67768036191676800 * fl_den f <-> fl_num f / fl_den f <= 67768036191676799) as ->.
  { split; intros H.
    - enough (fl_num f / fl_den f < 67768036191676800) by lia. apply Z.div_lt_upper_bound; lia.
    - destruct (Z.lt_ge_cases (fl_num f) (67768036191676800 * fl_den f)) as [L|L]; [exact L|exfalso].
      enough (67768036191676800 <= fl_num f / fl_den f) by lia. apply Z.div_le_lower_bound; lia. }
  change (2 ^ 63) with 9223372036854775808. set (s := fl_num f / fl_den f). clearbody s.
  destruct (9223372036854775808 <=? s) eqn:E; [split; [discriminate|lia]|].
  destruct (67768036191676799 <? s) eqn:E'; split; try discriminate; try lia; auto.
Qed.
Lemma co_repr_ok brief c : co_repr brief c = Ok tt <-> legible_content brief c.
Proof.
  assert (S : forall k : shown_payload -> res unit,
    (x <- co_shown brief c ;; k x) = Ok tt <-> exists x, co_shown brief c = Ok x /\ k x = Ok tt).
  { intros k. split; [intros H; apply bind_ok in H; exact H|]. intros (x & -> & H). exact H. }
  unfold co_repr. rewrite S. unfold legible_content.
  set (R := (forall n, co_name c = Some n -> Forall legible_comp n) /\ (forall f, co_expiry c = Some f -> legible_time f) /\ legible_numbers [co_fcid c]).
  assert (Q : forall y, (_ <- opt_repr name_repr (co_name c) ;; _ <- opt_repr ts_repr (co_expiry c) ;; _ <- y ;; opt_repr int_text (co_fcid c)) = Ok tt <->
    y = Ok tt /\ R).
  { intros y. unfold R. rewrite !then_ok, numbers_cons, numbers_nil, (opt_repr_ok name_repr), (opt_repr_ok ts_repr). split.
    - intros (X & Y & Z & V). split; [exact Z|]. split; [intros n E; apply comps_repr_ok; auto|]. split; [intros f E; apply ts_repr_ok; auto|auto].
    - intros (Z & X & Y & V). split; [intros n E; apply comps_repr_ok; auto|]. split; [intros f E; apply ts_repr_ok; auto|tauto]. }
  assert (L : (exists x, co_shown brief c = Ok x /\ match x with PLMan m => man_repr m | PLLink l => link_repr l | PLRaw => Ok tt end = Ok tt) <-> legible_payload brief c).
  { unfold co_shown, legible_payload, is_manifest, is_link, PT_MANIFEST, PT_LINK. destruct (co_ptype c) as [t|].
    - destruct (t =? 3) eqn:T3.
      { replace t with 3 by lia. destruct (co_payload c) as [b|].
        - destruct (man_deserialize b) as [m|e] eqn:E.
          + split; [intros (x & [= <-] & H); exists b; split; [reflexivity|]; right; exists m; split; [exact E|]; now apply man_repr_ok|].
            intros (b' & [= <-] & [H|(m' & H & H')]); [congruence|]. assert (m' = m) as -> by congruence. exists (PLMan m). split; [reflexivity|]. now apply man_repr_ok.
          + assert (D : e = ParseError \/ e <> ParseError) by (destruct e; auto; right; discriminate). destruct D as [->|D].
            * split; [intros _; exists b; auto|]. intros _. exists PLRaw. auto.
            * split; [intros (x & H & _); destruct e; congruence|]. intros (b' & [= <-] & [H|(m' & H & _)]); congruence.
        - split; [intros (x & [=] & _)|intros (b & [=] & _)]. }
      destruct (t =? 2) eqn:T2.
      { replace t with 2 by lia. destruct (co_payload c) as [b|].
        - destruct (link_deserialize b) as [l|e] eqn:E; cbn [bind].
          + split; [intros (x & [= <-] & H); exists b, l; split; [reflexivity|]; split; [exact E|]; now apply link_repr_ok|].
            intros (b' & l' & [= <-] & H & H'). assert (l' = l) as -> by congruence. exists (PLLink l). split; [reflexivity|]. now apply link_repr_ok.
          + split; [intros (x & [=] & _)|intros (b' & l' & [= <-] & H & H'); congruence].
        - split; [intros (x & [=] & _)|intros (b & ? & [=] & _)]. }
      assert (M : match t with 2 => exists b l, co_payload c = Some b /\ link_deserialize b = Ok l /\ legible_link l
        | 3 => exists b, co_payload c = Some b /\ (man_deserialize b = Err ParseError \/ exists m, man_deserialize b = Ok m /\ legible_manifest m)
        | _ => brief = true -> co_payload c <> None end <-> (brief = true -> co_payload c <> None)).
      { destruct t as [|[q|[q|q|]|]|q]; try reflexivity; [|lia]. destruct q; [reflexivity|reflexivity|lia]. }
      match goal with |- _ <-> ?X => change X with (match t with 2 => exists b l, co_payload c = Some b /\ link_deserialize b = Ok l /\ legible_link l
        | 3 => exists b, co_payload c = Some b /\ (man_deserialize b = Err ParseError \/ exists m, man_deserialize b = Ok m /\ legible_manifest m)
        | _ => brief = true -> co_payload c <> None end) end.
      rewrite M. destruct brief, (co_payload c); split; eauto; try discriminate.
      + intros (x & [=] & _).
      + intros H. now destruct (H eq_refl).
    - destruct brief, (co_payload c); split; eauto; try discriminate.
      + intros (x & [=] & _).
      + intros H. now destruct (H eq_refl). }
  rewrite <- L. split.
  - intros (x & Hx & H). apply Q in H as (H & H'). eauto.
  - intros ((x & Hx & H) & H'). exists x. split; [exact Hx|]. apply Q. auto.
Qed.

(* * C76: what can be printed *)
Theorem C76_printable : forall brief p, packet_repr brief p = Ok tt <-> legible_packet brief p.
Proof.
  intros brief p. unfold packet_repr, legible_packet. rewrite then_ok, opt_repr_ok.
  assert (B : match p_body p with BCO c => co_repr brief c | BInterest _ => Ok tt end = Ok tt <-> forall c, p_body p = BCO c -> legible_content brief c).
  { destruct (p_body p) as [c|n].
    - rewrite co_repr_ok. split; [intros H c' [= <-]; exact H|auto].
    - split; [discriminate|reflexivity]. }
  rewrite B. split; intros (X & Y); (split; [exact X|]).
  - intros kid pk kl st E. apply Y in E. cbn [valg_repr] in E. apply then_ok in E as (E1 & E2). split; [now apply ts_repr_ok|].
    intros l ->. now apply link_repr_ok.
  - intros v E. destruct v as [|kid pk kl st]; [reflexivity|]. apply Y in E as (E1 & E2). cbn [valg_repr]. apply then_ok.
    split; [|now apply ts_repr_ok]. apply opt_repr_ok. intros l El. apply link_repr_ok. auto.
Qed.
Print Assumptions C76_printable.
Theorem C76_manifest : forall m, man_repr m = Ok tt <-> legible_manifest m.
Proof. exact man_repr_ok. Qed.
Print Assumptions C76_manifest.

(* Printing changes nothing else: packet_reader succeeds exactly when it would
   without printing and the packet, and what was decrypted, can be printed. *)
Theorem C76_show : forall P pretty a now w sh,
  packet_show P pretty a now w = Ok sh <->
  packet_read P a now w = Ok sh /\ legible_packet (negb pretty) (sh_packet sh) /\
  forall m, sh_manifest sh = Some (Some m) -> legible_manifest m.
Proof.
  intros P pretty a now w sh. unfold packet_show, packet_read.
  destruct (create_keystore P a) as [ks|]; cbn [bind]; [|intuition discriminate].
  destruct (packet_deserialize now w) as [p|]; cbn [bind]; [|intuition discriminate].
  assert (E : forall k : res shown, (forall s, k = Ok s -> sh_packet s = p) -> forall R,
    (k = Ok sh /\ R) <-> k = Ok sh /\ sh_packet sh = p /\ R).
  { intros k H R. split; [intros (A & B); auto|tauto]. }
  assert (B : forall k : res shown, (_ <- packet_repr (negb pretty) p ;; k) = Ok sh <-> legible_packet (negb pretty) p /\ k = Ok sh).
  { intros k. rewrite <- C76_printable. destruct (packet_repr (negb pretty) p) as [[]|]; cbn [bind]; intuition discriminate. }
  rewrite B. clear B.
  destruct (utils_validate P ks p) as [v|]; cbn [bind]; [|intuition discriminate].
  destruct (p_body p) as [c|n]; [|intuition discriminate].
  destruct (is_manifest c).
  2:{ split; [intros (L & H); apply Ok_inj in H; subst sh; split; [reflexivity|]; split; [exact L|discriminate]|].
      intros (H & L & _). split; [|exact H]. apply Ok_inj in H. subst sh. exact L. }
  destruct (man_from_content c) as [m|]; cbn [bind]; [|intuition discriminate].
  destruct (is_encrypted m).
  2:{ split; [intros (L & H); apply Ok_inj in H; subst sh; split; [reflexivity|]; split; [exact L|discriminate]|].
      intros (H & L & _). split; [|exact H]. apply Ok_inj in H. subst sh. exact L. }
  destruct (utils_decrypt P ks m) as [d|]; cbn [bind]; [|intuition discriminate].
  assert (D : opt_repr man_repr d = Ok tt <-> forall m', d = Some m' -> legible_manifest m').
  { rewrite opt_repr_ok. split; intros H m' X; apply man_repr_ok; auto. }
  split.
  - intros (L & H). apply bind_ok in H as ([] & H1 & H). apply Ok_inj in H. subst sh. split; [reflexivity|]. split; [exact L|].
    cbn [sh_manifest]. intros m' [= ->]. apply (proj1 D H1). reflexivity.
  - intros (H & L & M). apply Ok_inj in H. subst sh. cbn [sh_packet sh_manifest] in *. split; [exact L|].
    rewrite (proj2 D); [reflexivity|]. intros m' ->. auto.
Qed.
Print Assumptions C76_show.

(* If the packet can be printed, a failure is that of reading. *)
Theorem C76_failures : forall P pretty a now w e,
  packet_read P a now w = Err e ->
  (forall p, packet_deserialize now w = Ok p -> legible_packet (negb pretty) p) ->
  packet_show P pretty a now w = Err e.
Proof.
  intros P pretty a now w e H L. unfold packet_show, packet_read in *.
  destruct (create_keystore P a) as [ks|]; cbn [bind] in *; [|assumption].
  destruct (packet_deserialize now w) as [p|]; cbn [bind] in *; [|assumption].
  rewrite (proj2 (C76_printable _ p) (L p eq_refl)). cbn [bind].
  destruct (utils_validate P ks p) as [v|]; cbn [bind] in *; [|assumption].
  destruct (p_body p) as [c|n]; [|assumption]. destruct (is_manifest c); [|assumption].
  destruct (man_from_content c) as [m|]; cbn [bind] in *; [|assumption]. destruct (is_encrypted m); [|assumption].
  destruct (utils_decrypt P ks m) as [d|]; cbn [bind] in *; [discriminate|assumption].
Qed.
Print Assumptions C76_failures.

(* ---------------- what the package sends can be printed ---------------- *)

(* The names among the options consist of texts and of legible numbers. *)
Definition legible_options {P} (o : opts P) : Prop :=
  forall n c, op_name o = Some n \/ op_mprefix o = Some n \/ op_dprefix o = Some n \/ (exists l, In l (locators o) /\ l_name l = Some n) ->
    In c n -> legible_comp (mkComp (c_type c) KBytes (c_val c)).
(* The encryption is set up as the constructors do it: the key number and the
   number of the KDF fit eight bytes, and a wrapped key was made by wrapping. *)
Definition usual_encryption {P} (o : opts P) : Prop :=
  match op_enc o with
  | ENone => True
  | EAead a => params_ok a
  | EOaep i => params_ok (oi_params i) /\
      forall wr, oi_wrapper i = Some wr -> exists key seed, wrapper_create P key seed (oi_params i) = Ok wr
  end.

Lemma small_number n : 0 <= n < 2 ^ 64 -> legible_number n.
Proof. intros H. apply number_ok, int_text_small, H. Qed.
Lemma round_below a b : 0 < a -> 0 < b -> a * fl_den (fl_round a b) <= 2 * b * fl_num (fl_round a b).
Proof.
  intros Ha Hb. unfold fl_round. replace (a =? 0) with false by lia. set (e := fl_exp a b).
  pose proof (fl_exp_spec a b Ha Hb) as E. cbv zeta in E. fold e in E.
  unfold fl_den, fl_num. cbn [fm fe].
  set (A := a * 2 ^ Z.max 0 (- e)) in *. set (B := b * 2 ^ Z.max 0 e) in *.
  assert (HB : 0 < B) by (subst B; pose proof (pow2_pos (Z.max 0 e)); nia).
  pose proof (rne_bound A B HB) as R. set (m := rne A B) in *. clearbody m. 
  replace (2 * b * (m * 2 ^ Z.max 0 e)) with (2 * (m * B)) by (subst B; ring).
  change (2 ^ 52) with 4503599627370496 in E. set (M := m * B) in *. clearbody M A B. lia.
Qed.
Lemma time_legible f m : ts_msec f = Ok m -> m < 2 ^ 64 -> legible_time f.
Proof.
  unfold ts_msec, legible_time. intros H Hm. destruct (fl_finite _); [|discriminate]. apply Ok_inj in H. unfold fl_trunc in H.
  pose proof (den_pos f) as D. destruct (Z.le_gt_cases (fl_num f) 0) as [N|N]; [nia|].
  unfold fl_mul_Z in H. pose proof (round_below (fl_num f * 1000) (fl_den f) ltac:(lia) D) as R.
  set (g := fl_round (fl_num f * 1000) (fl_den f)) in *. pose proof (den_pos g) as Dg.
  assert (G : fl_num g < (m + 1) * fl_den g) by (subst m; pose proof (Z.mul_succ_div_gt (fl_num g) (fl_den g) Dg); nia).
  change (2 ^ 64) with 18446744073709551616 in Hm. set (n := fl_num g) in *. set (dg := fl_den g) in *. clearbody n dg. clear H.
  assert (X : fl_num f * 1000 * dg < 2 * fl_den f * ((m + 1) * dg)) by nia.
  assert (Y : fl_num f * 1000 < 2 * fl_den f * (m + 1)) by nia. nia.
Qed.

(* numbers that were written are not negative *)
Lemma opt_int_small ty o w : wire_opt (int_tlv ty) o = Ok w -> u64o o -> opt_repr int_text o = Ok tt.
Proof.
  destruct o as [n|]; [|reflexivity]. cbn [wire_opt opt_repr]. intros H U. apply bind_ok in H as (t & H & _).
  apply int_tlv_ok in H as (_ & _ & H & _). apply number_ok, small_number. split; [exact H|]. now apply U.
Qed.
Lemma wire_opt_some {A} (enc : A -> res tlv) a w : wire_opt enc (Some a) = Ok w -> exists t, enc a = Ok t.
Proof. cbn [wire_opt]. intros H. apply bind_ok in H as (t & H & _). eauto. Qed.
Lemma mapM_each {A B} (f : A -> res B) l r : mapM f l = Ok r -> forall a, In a l -> exists b, f a = Ok b.
Proof.
  revert r. induction l as [|x l IH]; intros r H a I; [destruct I|]. cbn [mapM] in H. apply bind_ok in H as (b & E & H).
  apply bind_ok in H as (r' & E' & _). destruct I as [<-|I]; eauto.
Qed.
Lemma made_legible nd t : node_tlv nd = Ok t -> node_wf nd -> made_node nd -> legible_node (node_norm nd).
Proof.
  intros H (Wd & Wg) (Mg & Md). unfold node_tlv in H. apply bind_ok in H as (_ & _ & H). apply bind_ok in H as (v & H & _).
  unfold node_value in H. apply bind_ok in H as (a & Ha & H). apply bind_ok in H as (gs & Hg & _). split; cbn [node_norm n_groups n_data].
  - rewrite Forall_forall in *. intros g I. split; [exact (Mg g I)|]. intros d Ed.
    destruct (mapM_each _ _ _ Hg g I) as (tg & Eg). unfold hg_tlv in Eg. apply bind_ok in Eg as (x & Ex & _). rewrite Ed in Ex.
    apply wire_opt_some in Ex as (td & Ex). unfold gd_tlv in Ex. destruct (Wg g I d Ed) as (U1 & U2 & U3 & U4).
    apply bind_ok in Ex as (? & X1 & Ex). apply bind_ok in Ex as (? & _ & Ex). apply bind_ok in Ex as (? & X2 & Ex). apply bind_ok in Ex as (? & _ & Ex).
    apply bind_ok in Ex as (? & X3 & Ex). apply bind_ok in Ex as (? & X4 & _).
    rewrite !numbers_cons, numbers_nil. repeat split; eapply opt_int_small; eassumption.
  - intros d' E. destruct (n_data nd) as [d|] eqn:Ed; [|discriminate]. cbn [option_map] in E. injection E as <-.
    apply wire_opt_some in Ha as (td & Ha). unfold nd_tlv in Ha. apply bind_ok in Ha as (? & X1 & Ha). 
    destruct (Md d eq_refl) as (L & F), (Wd d eq_refl) as (U & _). cbn [nd_norm nd_size nd_locators nd_ncdefs]. split; [|split].
    + rewrite numbers_cons, numbers_nil. split; [eapply opt_int_small; eassumption|auto].
    + rewrite L. intros l [=].
    + revert F. apply Forall_impl. intros q (n & s & En & Es & N & S & _). split.
      * rewrite numbers_cons, numbers_nil, En. split; [apply number_ok; exact N|auto].
      * intros s' Es'. rewrite Es in Es'. injection Es' as <-. now apply schema_repr_ok.
Qed.
Lemma params_legible p md nonce : params_ok p -> mode_of_key (ap_key p) = Ok md ->
  let a := mkAead (ap_num p) nonce (Some md) (ap_kdf p) in
  legible_number (a_keynum a) /\ (forall m, a_mode a = Some m -> 1 <= m <= 4) /\
  (forall k t, a_kdf a = Some k -> kdf_tlv k = Ok t -> legible_number (k_alg k)).
Proof.
  intros (N & K) M. cbn. split; [apply small_number; exact N|]. split.
  - intros m [= <-]. apply mode_fits in M. unfold fits_mode in M. intuition lia.
  - intros k t E T. unfold kdf_tlv in T. apply bind_ok in T as (t1 & T & _). apply int_tlv_ok in T as (_ & _ & T & _).
    apply small_number. split; [exact T|eauto].
Qed.
Lemma aead_legible p md nonce b : params_ok p -> mode_of_key (ap_key p) = Ok md ->
  aead_wire (mkAead (ap_num p) nonce (Some md) (ap_kdf p)) = Ok b ->
  let a := mkAead (ap_num p) nonce (Some md) (ap_kdf p) in
  legible_number (a_keynum a) /\ (forall m, a_mode a = Some m -> 1 <= m <= 4) /\ (forall k, a_kdf a = Some k -> legible_number (k_alg k)).
Proof.
  intros Hp Hm H. pose proof (params_legible p md nonce Hp Hm) as (A & B & C). cbv zeta. split; [exact A|]. split; [exact B|].
  intros k E. unfold aead_wire in H. apply bind_ok in H as (? & _ & H). apply bind_ok in H as (? & _ & H). apply bind_ok in H as (? & _ & H).
  apply bind_ok in H as (? & H & _). cbn [a_kdf] in *. rewrite E in H. apply wire_opt_some in H as (t & H). eapply C; eassumption.
Qed.
Lemma sent_legible P (o : opts P) nd m w : usual_encryption o -> manifest_of_node o nd m -> node_wf nd -> made_node nd -> man_wire m = Ok w ->
  exists m', man_deserialize w = Ok m' /\ legible_manifest m'.
Proof.
  intros U Hm Wn Mn Hw. destruct (received P o nd m w) as (m' & D & E); auto.
  { intros i Ei. unfold usual_encryption in U. rewrite Ei in U. apply U. }
  { unfold usual_encryption in U. destruct (op_enc o); [exact I|exact U|apply U]. }
  exists m'. split; [exact D|]. pose proof Hw as W. unfold man_wire in W. unfold manifest_of_node, usual_encryption in *. destruct (op_enc o) as [|a|i].
  - subst m m'. split; [discriminate|]. cbn [m_node]. intros n [= <-].
    cbn [m_ctx m_node m_tag wire_opt optM] in W. apply bind_ok in W as (? & _ & W). apply bind_ok in W as (t & W & _).
    unfold mnode_tlv in W. eapply made_legible; eassumption.
  - destruct Hm as (nonce & Hm). apply aead_create_ok in Hm as (md & ct & tag & Hmd & _ & -> & _). subst m'.
    split; [|discriminate]. cbn [m_ctx]. intros c [= <-]. cbn [m_ctx] in W. apply bind_ok in W as (? & W & _). apply wire_opt_some in W as (t & W).
    cbn [ctx_tlv] in W. apply bind_ok in W as (b & W & _). destruct (aead_legible _ _ _ _ U Hmd W) as (A & B & C).
    split; [exact A|]. split; [exact B|]. split; [exact C|]. discriminate.
  - destruct Hm as (inc & nonce & Hm). apply oaep_create_ok in Hm as (md & ct & tag & Hmd & _ & ->). subst m'. destruct U as (U & HW).
    split; [|discriminate]. cbn [m_ctx]. intros c [= <-]. cbn [m_ctx] in W. apply bind_ok in W as (? & W & _). apply wire_opt_some in W as (t & W).
    cbn [ctx_tlv] in W. apply bind_ok in W as (b & W & _). destruct (aead_legible _ _ _ _ U Hmd W) as (A & B & C).
    split; [exact A|]. split; [exact B|]. split; [exact C|]. intros a' wr [= _ Ew]. destruct inc; [|discriminate].
    destruct (HW wr Ew) as (key & seed & Hc). unfold wrapper_create in Hc. apply bind_ok in Hc as (? & _ & Hc). apply bind_ok in Hc as (? & _ & Hc).
    apply bind_ok in Hc as (? & _ & Hc). apply Ok_inj in Hc. subst wr. split; [discriminate|].
    rewrite numbers_cons, numbers_nil. cbn [w_hashalg]. split; [reflexivity|auto].
Qed.

Lemma be_bytes_ok k n : bytes_ok (be_bytes k n).
Proof.
  induction k; cbn [be_bytes]; [constructor|]. constructor; [|assumption]. apply Z.mod_pos_bound. lia.
Qed.
Lemma width_legible n : legible_number (array_to_number (be_bytes (Z.to_nat (int_width n)) n)).
Proof.
  apply small_number. pose proof (array_to_number_bound (be_bytes (Z.to_nat (int_width n)) n) (be_bytes_ok _ _)) as B.
  rewrite zlen_be_bytes in B. assert (0 <= int_width n <= 8).
  { unfold int_width. repeat match goal with |- context [if ?b then _ else _] => destruct b end; lia. }
  rewrite Z2Nat.id in B by lia. split; [apply B|]. apply Z.lt_le_trans with (256 ^ int_width n); [apply B|].
  change (2 ^ 64) with (256 ^ 8). apply Z.pow_le_mono_r; lia.
Qed.
Lemma object_legible P (o : opts P) man n m : legible_options o -> object_name o man n = Some m ->
  Forall legible_comp (name_norm m).
Proof.
  intros L H. assert (Q : forall p, prefix_of o man = Some p -> Forall legible_comp (name_norm p)).
  { intros p E. unfold name_norm. apply Forall_forall. intros c' I. apply in_map_iff in I as (c & <- & I). apply (L p); [|exact I].
    unfold prefix_of in E. destruct man; [destruct (op_mprefix o)|destruct (op_dprefix o)]; auto. }
  unfold object_name in H. destruct (op_type o); [discriminate|auto|].
  destruct (prefix_of o man) as [p|]; [|discriminate]. injection H as <-. unfold name_norm. rewrite map_app. apply Forall_app. split; [exact (Q p eq_refl)|].
  repeat constructor; cbn [c_type c_kind c_val]; [destruct man; discriminate..|]. intros _. apply width_legible.
Qed.
Lemma packet_legible p c w0 : packet_wf p -> packet_wire p = Ok w0 -> p_body p = BCO c -> (forall n, co_name c = Some n -> Forall legible_comp (name_norm n)) ->
  (co_payload c <> None /\ co_ptype c = Some PT_DATA \/
   co_ptype c = Some PT_MANIFEST /\ exists w m, co_payload c = Some w /\ man_deserialize w = Ok m /\ legible_manifest m) ->
  forall brief, legible_packet brief (packet_norm p).
Proof.
  intros (_ & _ & Wc & Wv) W B N L brief. unfold packet_norm. rewrite B. split; cbn [p_body p_alg].
  - intros c' [= <-]. destruct (Wc c B) as (We & Wf). split; [|split; [|split]].
    + unfold legible_payload. cbn [co_norm co_ptype co_payload]. destruct L as [(L & ->)|(-> & w1 & m & Ew & Em & Lm)].
      * intros _. exact L.
      * exists w1. split; [exact Ew|]. right. exists m. auto.
    + cbn [co_norm co_name]. intros n E. destruct (co_name c) as [n'|]; [|discriminate]. injection E as <-. auto.
    + cbn [co_norm co_expiry]. intros f E. destruct (We f E) as (m & M & Hm & _). eapply time_legible; [exact M|lia].
    + cbn [co_norm co_fcid]. apply packet_wire_ok in W as (h & c0 & tc & l2 & l3 & _ & Hb & Hc & _). rewrite B in Hb. injection Hb as <-.
      unfold co_tlv in Hc. do 4 (apply bind_ok in Hc as (? & _ & Hc)). apply bind_ok in Hc as (? & Hc & _).
      rewrite numbers_cons, numbers_nil. split; [|auto]. eapply opt_int_small; [exact Hc|exact Wf].
  - intros kid pk kl st E. destruct (Wv _ E) as (_ & K & m & M & Hm & _). split; [eapply time_legible; [exact M|lia]|]. intros l ->. discriminate.
Qed.

Lemma build_legible P clog rnd now (o : opts P) nc data s root s' p w :
  log_ok clog -> op_max o <= 2 ^ 24 -> nc + 1 < 2 ^ 64 -> sent_times o now -> legible_options o -> usual_encryption o ->
  manifest_tree P clog rnd now o nc data s = (Ok root, s') -> ms_out s = [] -> In p (ms_out s') -> packet_wire p = Ok w ->
  packet_wf p /\ (exists c, p_body p = BCO c) /\ forall brief, legible_packet brief (packet_norm p).
Proof.
  intros HL HM Hnc HT LO UE H S0 Hp Hw.
  assert (PL : printable_locators o).
  { unfold printable_locators. destruct (op_type o); [|exact I|exact I]. intros l n c Hl Hn Hc.
    destruct (LO n c) as (A & B); [right; right; right; eauto|exact Hc|]. cbn [c_type c_kind c_val] in *. split.
    - intros T. destruct (A T) as (_ & A'). now apply utf8_encodes.
    - exact B. }
  assert (NM : forall n, body_name p = Some n -> Forall legible_comp (name_norm n)).
  { destruct (C33_names P clog rnd now o nc data s root s' HL HM Hnc H) as (datas & mans & E & Er & Ed & Em & _). rewrite E, S0 in Hp. cbn [app] in Hp.
    intros n En. apply in_app_iff in Hp as [Hp|Hp]; [|apply in_app_iff in Hp as [Hp|[<-|[]]]].
    - apply In_nth_error in Hp as (j & Hj). destruct (Ed j p Hj) as (X & _). rewrite X in En. eapply object_legible; eassumption.
    - rewrite Forall_forall in Em. destruct (Em p Hp) as (nd & n' & items & _ & (X & _) & _). rewrite X in En. eapply object_legible; eassumption.
    - rewrite Er in En. unfold name_norm. apply Forall_forall. intros c' I. apply in_map_iff in I as (c & <- & I). apply (LO n c); auto. }
  apply (manifest_tree_ok P clog rnd now o nc data HL HM) in H as (k' & x & ps & l & pkts & meta & num & rr & lv & t & np & b & k2 & SU & RS & RP & ->).
  cbn [ms_out] in Hp. rewrite S0 in *. cbn [app] in *.
  assert (Sp : storable p).
  { eapply (new_storable P clog rnd now o nc data HM Hnc HT _ _ _ _ _ _ _ _ _ SU _ _ _ _ _ RS _ _ root RP). exact Hp. }
  destruct (storable_wf _ Sp) as (w' & Wf & _).
  assert (exists c, p_body p = BCO c /\
    (co_payload c <> None /\ co_ptype c = Some PT_DATA \/
     co_ptype c = Some PT_MANIFEST /\ exists w m, co_payload c = Some w /\ man_deserialize w = Ok m /\ legible_manifest m)) as (c & B & L).
  { apply in_app_iff in Hp as [Hp|Hp]; [|apply in_app_iff in Hp as [Hp|[<-|[]]]].
    - destruct (data_kind P clog rnd now o nc data _ _ _ _ _ _ _ _ _ SU p Hp) as (j & nm & bb & fc & w1 & _ & Hb & Hal & Hw1).
      eexists. split; [exact Hb|]. cbn [co_fcid co_payload co_ptype]. left; split; [discriminate|reflexivity].
    - destruct (tree_kind P clog rnd now o nc data HM Hnc _ _ _ _ _ _ _ _ _ SU _ _ _ _ _ RS p Hp)
        as (u & Hu & _ & (m & w1 & Hm & Hmw & _ & Hb & Hal & _) & _ & Nw & _).
      cbn [te_opt env_of] in *. eexists. split; [exact Hb|]. cbn [co_fcid co_payload co_ptype]. right. split; [reflexivity|].
      assert (M : manifest_of_node o (mi_node (top u)) m).
      { unfold manifest_for in Hm. cbn [te_opt env_of] in Hm. unfold manifest_of_node. destruct (op_enc o); eauto. }
      pose proof (tree_made P clog rnd now o nc data _ _ _ _ _ _ _ _ _ SU _ _ _ _ _ RS u Hu) as T.
      destruct (sent_legible P o _ m w1 UE M Nw T Hmw) as (m' & D & L). eauto.
    - pose proof (root_inv _ _ _ _ _ _ _ _ _ _ RP) as (h & mr & wr & Hh & Hmr & Hwr & _ & Hcr & Hbr & _).
      eexists. split; [exact Hbr|]. cbn [co_fcid co_payload co_ptype]. right. split; [reflexivity|].
      assert (M : manifest_of_node o (root_node o x (zlen data) h) mr).
      { unfold root_manifest in Hmr. unfold manifest_of_node. destruct (op_enc o); eauto. }
      pose proof (root_node_wf P clog rnd now o nc data HM Hnc _ _ _ _ _ _ _ _ _ SU h) as Nr.
      pose proof (root_made P o nc data x h (su_ctx _ _ _ _ _ _ _ _ _ _ _ _ _ _ _ _ SU) Hnc PL) as T.
      destruct (sent_legible P o _ mr wr UE M Nr T Hwr) as (m' & D & L). eauto. }
  split; [exact Wf|]. split; [eauto|]. intros brief. eapply packet_legible; try eassumption.
  intros n En. apply NM. unfold body_name. rewrite B. exact En.
Qed.
(* Everything a build sends can be printed after it was received. *)
Theorem C76_build : forall P clog rnd now (o : opts P) nc data s root s' p w later,
  log_ok clog -> op_max o <= 2 ^ 24 -> nc + 1 < 2 ^ 64 -> sent_times o now -> legible_options o -> usual_encryption o ->
  manifest_tree P clog rnd now o nc data s = (Ok root, s') -> ms_out s = [] -> In p (ms_out s') -> packet_wire p = Ok w ->
  exists p', packet_deserialize later w = Ok p' /\ same_packet p' p /\ forall brief, packet_repr brief p' = Ok tt.
Proof.
  intros P clog rnd now o nc data s root s' p w later HL HM Hnc HT LO UE H S0 Hp Hw.
  destruct (build_legible P clog rnd now o nc data s root s' p w) as (Wf & (c & B) & L); auto.
  exists (packet_norm p). split; [now apply (packet_roundtrip later)|]. split; [eapply same_packet_norm; exact B|].
  intros brief. apply C76_printable, L.
Qed.
Print Assumptions C76_build.

Lemma setup_legible P hash fr now (a : wargs P) o d : writer_setup P hash fr now a = Ok (o, d) -> legible_options o.
Proof.
  intros H. apply setup_inv in H. cbv zeta in H. destruct H as (A1 & _ & _ & A4 & A5 & A6 & A7 & _).
  assert (Q : forall c, c_type c = T_NAMESEGMENT /\ utf8 (c_val c) = true -> legible_comp (mkComp (c_type c) KBytes (c_val c))).
  { intros c (T & U). unfold T_NAMESEGMENT in T. split; cbn [c_type c_kind c_val]; [|lia]. intros _. split; [reflexivity|]. now apply utf8_encodes. }
  pose proof (uri_plain _ _ A1) as [_ B1]. pose proof (uri_plain _ _ A4) as [_ B4]. pose proof (uri_plain _ _ A5) as [_ B5].
  intros n c [E|[E|[E|(l & Hl & E)]]] I; apply Q; [eapply B1|eapply B4|eapply B5|]; try eassumption.
  unfold locators in Hl. destruct Hl as [<-|Hl]; [cbn in E; eapply B1; eassumption|]. apply in_app_or in Hl as [Hl|Hl].
  - destruct (op_mlocs o) as [y|]; [|contradiction]. eapply locators_printable; eassumption.
  - destruct (op_dlocs o) as [y|]; [|contradiction]. eapply locators_printable; eassumption.
Qed.
Lemma encrypted_node P (o : opts P) nd m : manifest_of_node o nd m -> op_enc o <> ENone -> exists t, node_tlv nd = Ok t.
Proof.
  intros H N. assert (Q : forall p c r, encrypt_with_ctx P p nd c = Ok r -> exists t, node_tlv nd = Ok t).
  { intros p c r E. unfold encrypt_with_ctx in E. repeat (apply bind_ok in E as (? & ? & E)). eauto. }
  unfold manifest_of_node in H. destruct (op_enc o) as [|a|i]; [contradiction| |].
  - destruct H as (nonce & H). apply aead_create_ok in H as (md & ct & tag & _ & H & _). eapply Q; exact H.
  - destruct H as (inc & nonce & H). apply oaep_create_ok in H as (md & ct & tag & _ & H & _). eapply Q; exact H.
Qed.
(* What manifest_writer wrote is printed by packet_reader, with --pretty and
   without, and what it prints is what C69_written says. *)
Theorem C76_written : forall P hash fr clog rnd now (a : wargs P) data root s s' o dopt r ks later p w pretty,
  log_ok clog -> wa_max a <= 2 ^ 24 -> aead_correct P -> oaep_correct P -> sig_correct P ->
  whole_seconds (wa_rexp a) -> whole_seconds (wa_mexp a) -> whole_seconds (wa_dexp a) ->
  (ca_key (wa_c a) <> None -> wire_time now) -> fresh_ok fr ->
  writer_setup P hash fr now a = Ok (o, dopt) -> ms_out s = [] ->
  writer_run P hash fr clog rnd now a data s = (Ok root, s') ->
  told hash (wa_c a) r -> create_keystore P r = Ok ks ->
  In p (ms_out s') -> packet_wire p = Ok w ->
  (is_data_object p /\ exists p', packet_show P pretty r later w = Ok (mkShown p' false None) /\ same_packet p' p) \/
  (exists nd, holds_node o p nd /\
     (ca_wrap (wa_c a) = None \/ ca_enc (wa_c a) <> None \/ p = root ->
      exists p' v x, packet_show P pretty r later w = Ok (mkShown p' v x) /\ same_packet p' p /\ shows_node o nd x /\
        (v = true <-> ca_key (wa_c a) <> None /\ p = root))).
Proof.
  intros P hash fr clog rnd now a data root s s' o dopt r ks later p w pretty HL HM HA HO HS W1 W2 W3 N F SU S0 R T K Hp Hw.
  pose proof (setup_ready P hash fr now a o dopt r ks SU F T K W1 W2 W3 N) as (B1 & B2 & B3 & B4 & B5).
  pose proof (setup_legible _ _ _ _ _ _ _ SU) as LO.
  assert (UE : usual_encryption o).
  { pose proof (proj1 B4) as Op. unfold can_open, usual_encryption in *. destruct (op_enc o); [exact I|apply Op|]. split; apply Op. }
  assert (HM' : op_max o <= 2 ^ 24).
  { pose proof (setup_inv _ _ _ _ _ _ _ SU) as I. cbv zeta in I. destruct I as (_ & _ & _ & _ & _ & _ & _ & _ & _ & _ & _ & -> & _). exact HM. }
  assert (L : packet_wf p /\ (exists c, p_body p = BCO c) /\ forall brief, legible_packet brief (packet_norm p)).
  { pose proof R as R'. unfold writer_run in R'. rewrite SU in R'. cbn [lift sbind] in R'.
    eapply (build_legible P clog rnd now o 1 data); try eassumption. reflexivity. }
  destruct L as (_ & (c & Hb) & L).
  destruct (written_exact P hash fr clog rnd now a data root s s' o dopt r ks later p w HL HM HA HO HS W1 W2 W3 N F SU S0 R T K Hp Hw)
    as [(D & H)|(nd & D & Wn & Mn & H)]; [left|right].
  - split; [exact D|]. exists (packet_norm p). split; [|eapply same_packet_norm; exact Hb]. apply C76_show. split; [exact H|]. split; [apply L|discriminate].
  - exists nd. split; [exact D|]. intros C. destruct (H C) as (v & X & V). exists (packet_norm p), v, (exactly_shown o nd).
    split; [|split; [eapply same_packet_norm; exact Hb|split; [apply exactly_shows|exact V]]].
    apply C76_show. split; [exact X|]. split; [apply L|]. cbn [sh_manifest]. intros m Em.
    destruct D as (c' & m0 & w0 & _ & _ & _ & _ & D). 
    assert (NE : op_enc o <> ENone) by (intros Z; unfold exactly_shown in Em; rewrite Z in Em; discriminate).
    destruct (encrypted_node P o nd m0 D NE) as (t & Ht).
    assert (m = mkMan None (MNode (node_norm nd)) None) as -> by (unfold exactly_shown in Em; destruct (op_enc o); congruence).
    split; [discriminate|]. cbn [m_node]. intros n [= <-]. eapply made_legible; eassumption.
Qed.
Print Assumptions C76_written.

(* ---------------- exceptions of printing ---------------- *)

Lemma bind_err {A B} (m : res A) (k : A -> res B) e : bind m k = Err e -> m = Err e \/ exists a, m = Ok a /\ k a = Err e.
Proof. destruct m; cbn [bind]; [eauto|]. intros [= ->]. auto. Qed.
Lemma int_text_errs n : errs (int_text n) [ValueError].
Proof. unfold int_text. errs_tac fail. Qed.
Lemma opt_repr_errs {A} (f : A -> res unit) o E : (forall a, errs (f a) E) -> errs (opt_repr f o) E.
Proof. intros H. destruct o; cbn [opt_repr]; [apply H|apply errs_ok]. Qed.
Lemma list_repr_errs {A} (f : A -> res unit) l E : (forall a, errs (f a) E) -> errs (list_repr f l) E.
Proof. intros H. unfold list_repr. apply errs_bind; [apply mapM_errs; auto|intros; apply errs_ok]. Qed.
Definition text_exns := [ValueError; TypeError; AttributeError].
Lemma comp_repr_errs c : errs (Traversal.comp_repr c) text_exns.
Proof.
  unfold Traversal.comp_repr. intros e H. unfold text_exns.
  destruct (c_type c =? T_NAMESEGMENT).
  - destruct (c_kind c); [inversion H; cbn; tauto|]. destruct (utf8 (c_val c)); inversion H; cbn; tauto.
  - destruct (_ || _); [|discriminate]. apply int_text_errs in H. cbn in *; tauto.
Qed.
Lemma link_repr_errs l : errs (link_repr l) text_exns.
Proof. unfold link_repr. destruct (l_name l); [|apply errs_ok]. apply (list_repr_errs Traversal.comp_repr), comp_repr_errs. Qed.
Lemma up_text {A} (m : res A) : errs m [ValueError] -> errs m text_exns.
Proof. intros H e E. apply H in E. cbn in *; tauto. Qed.
Lemma links_errs o : errs (opt_repr (list_repr link_repr) o) text_exns.
Proof. apply opt_repr_errs. intros l. apply list_repr_errs, link_repr_errs. Qed.
Lemma schema_repr_errs s : errs (schema_repr s) text_exns.
Proof. pose proof (links_errs (schema_locators s)) as H. destruct s; exact H. Qed.
Lemma numbers_errs o : errs (opt_repr int_text o) text_exns.
Proof. apply opt_repr_errs. intros. apply up_text, int_text_errs. Qed.
Lemma then_errs (m k : res unit) E : errs m E -> errs k E -> errs (_ <- m ;; k) E.
Proof. intros. apply errs_bind; auto. Qed.
Lemma node_repr_errs n : errs (node_repr n) text_exns.
Proof.
  unfold node_repr. apply errs_bind; [|intros ? _; apply then_errs].
  - induction (n_groups n) as [|g gs IH]; cbn [node_hash_values]; [apply errs_ok|].
    destruct (hg_ptrs g); [apply errs_bind; [exact IH|intros; apply errs_ok]|]. intros e [= <-]. cbn; tauto.
  - apply opt_repr_errs. intros d. unfold nd_repr. repeat apply then_errs; [apply numbers_errs|apply links_errs|].
    apply list_repr_errs. intros q. unfold ncdef_repr. apply then_errs; [apply numbers_errs|apply opt_repr_errs, schema_repr_errs].
  - apply list_repr_errs. intros g. unfold hg_repr. apply opt_repr_errs. intros d. unfold gd_repr. repeat apply then_errs; apply numbers_errs.
Qed.
Lemma ctx_repr_errs c : errs (ctx_repr c) text_exns.
Proof.
  assert (A : forall a, errs (aead_repr a) text_exns).
  { intros a. unfold aead_repr. repeat apply then_errs; [apply up_text, int_text_errs| |].
    - apply opt_repr_errs. intros m. unfold mode_repr. intros e H. destruct (_ && _); inversion H; cbn; tauto.
    - apply opt_repr_errs. intros k. unfold kdf_repr. apply up_text, int_text_errs. }
  destruct c; cbn [ctx_repr]; [apply A|]. apply then_errs; [apply A|]. apply opt_repr_errs. intros y. unfold wrapper_repr.
  apply then_errs; [apply opt_repr_errs, link_repr_errs|apply numbers_errs].
Qed.
Lemma man_repr_errs m : errs (man_repr m) text_exns.
Proof.
  unfold man_repr. apply then_errs; [apply opt_repr_errs, ctx_repr_errs|]. destruct (m_node m); [apply node_repr_errs|apply errs_ok].
Qed.
Lemma ts_repr_errs f : errs (ts_repr f) [OverflowError; OSError].
Proof. unfold ts_repr. intros e H. destruct (_ <=? _); [inversion H; cbn; tauto|]. destruct (_ <? _); inversion H; cbn; tauto. Qed.
Definition print_exns := [ValueError; TypeError; AttributeError; OverflowError; OSError; ParseError; CannotParseError; RuntimeError; AssertionError].

(* Printing a manifest raises only ValueError (text or number that cannot be
   written), TypeError (a group without pointers) or AttributeError.  A packet
   adds the limits of dates and what parsing its payload raises; a manifest
   that cannot be parsed does not stop it. *)
Theorem C76_exceptions :
  (forall m e, man_repr m = Err e -> In e text_exns) /\
  (forall brief p e, (forall c b, p_body p = BCO c -> co_payload c = Some b -> bytes_ok b) ->
     packet_repr brief p = Err e ->
     In e print_exns /\
     (e = ParseError -> exists c, p_body p = BCO c /\ co_ptype c = Some 2)).
Proof.
  split; [exact man_repr_errs|]. intros brief p e Hb H.
  assert (T : forall m : res unit, errs m text_exns -> errs m print_exns) by (intros m Q x E; apply Q in E; cbn in *; tauto).
  assert (NP : forall m : res unit, errs m text_exns -> m <> Err ParseError).
  { intros m Q E. apply Q in E. cbn in E. intuition discriminate. }
  assert (O : forall o, errs (opt_repr ts_repr o) print_exns /\ opt_repr ts_repr o <> Err ParseError).
  { intros [f|]; cbn [opt_repr]; [|split; [apply errs_ok|discriminate]]. split; [|intros E]; [intros x E|]; apply ts_repr_errs in E; cbn in *; intuition discriminate. }
  unfold packet_repr in H. apply bind_err in H as [H|(u & _ & H)].
  2:{ destruct (p_alg p) as [v|]; [|discriminate]. cbn [opt_repr] in H. destruct v as [|kid pk kl st]; [discriminate|]. cbn [valg_repr] in H.
      apply bind_err in H as [H|(? & _ & H)].
      - apply (opt_repr_errs link_repr kl _ link_repr_errs) in H. split; [cbn in *; tauto|]. intros ->. cbn in H. intuition discriminate.
      - split; [exact (proj1 (O (Some st)) e H)|]. intros ->. now apply (proj2 (O (Some st))) in H. }
  destruct (p_body p) as [c|n]; [|discriminate]. unfold co_repr in H. apply bind_err in H as [H|(x & Hx & H)].
  - unfold co_shown in H. destruct (is_manifest c).
    + destruct (co_payload c) as [b|] eqn:Eb; [|inversion H; split; [cbn; tauto|discriminate]].
      pose proof (man_deserialize_errs b (Hb c b eq_refl Eb)) as D. destruct (man_deserialize b) as [m|e']; [discriminate|]. specialize (D e' eq_refl).
      assert (e' = e /\ e <> ParseError) as (-> & N) by (destruct e'; split; congruence). split; [cbn in *; tauto|contradiction].
    + destruct (is_link c) eqn:L.
      * assert (co_ptype c = Some 2) as E2. { unfold is_link, PT_LINK in L. destruct (co_ptype c); [f_equal; lia|discriminate]. }
        split; [|eauto]. destruct (co_payload c) as [b|] eqn:Eb; [|inversion H; cbn; tauto].
        apply bind_err in H as [H|(l & _ & H)]; [|discriminate]. apply (link_deserialize_errs b (Hb c b eq_refl Eb)) in H. cbn in *; tauto.
      * destruct brief; [|discriminate]. destruct (co_payload c); [discriminate|]. inversion H. split; [cbn; tauto|discriminate].
  - assert (G : errs (opt_repr name_repr (co_name c)) text_exns) by (apply opt_repr_errs; intros n; apply (list_repr_errs Traversal.comp_repr), comp_repr_errs).
    assert (M : errs match x with PLMan m => man_repr m | PLLink l => link_repr l | PLRaw => Ok tt end text_exns)
      by (destruct x; [apply man_repr_errs|apply link_repr_errs|apply errs_ok]).
    apply bind_err in H as [H|(? & _ & H)]; [split; [exact (T _ G e H)|intros ->; now apply NP in H]|].
    apply bind_err in H as [H|(? & _ & H)]; [split; [exact (proj1 (O _) e H)|intros ->; now apply (proj2 (O _)) in H]|].
    apply bind_err in H as [H|(? & _ & H)]; [split; [exact (T _ M e H)|intros ->; now apply NP in H]|].
    split; [exact (T _ (numbers_errs _) e H)|intros ->; apply NP in H; [contradiction|apply numbers_errs]].
Qed.
Print Assumptions C76_exceptions.

(* Which exception a time raises: OverflowError from 2^63 seconds on, OSError
   before that and after the year 2147485547. *)
Theorem C76_times : forall brief p f,
  (forall c, p_body p = BCO c -> co_expiry c = Some f ->
     legible_content brief (mkCO (co_name c) (co_ptype c) (co_payload c) None (co_fcid c)) -> ~ legible_time f ->
     packet_repr brief p = Err (if 2 ^ 63 * fl_den f <=? fl_num f then OverflowError else OSError)) /\
  (forall kid pk, (forall c, p_body p = BCO c -> legible_content brief c) -> p_alg p = Some (VRsa kid pk None f) -> ~ legible_time f ->
     packet_repr brief p = Err (if 2 ^ 63 * fl_den f <=? fl_num f then OverflowError else OSError)).
Proof.
  intros brief p f.
  assert (T : ~ legible_time f -> ts_repr f = Err (if 2 ^ 63 * fl_den f <=? fl_num f then OverflowError else OSError)).
  { unfold legible_time, ts_repr, fl_trunc, TIME_T_END, GMTIME_LAST. intros L. pose proof (den_pos f) as D. cbv zeta.
    assert ((2 ^ 63 <=? fl_num f / fl_den f) = (2 ^ 63 * fl_den f <=? fl_num f)) as ->.
    { apply eq_true_iff_eq. rewrite !Z.leb_le, (Z.mul_comm (2 ^ 63)). split; intros H.
      - apply Z.le_trans with (fl_den f * (fl_num f / fl_den f)); [apply Z.mul_le_mono_nonneg_l; lia|apply Z.mul_div_le; lia].
      - apply Z.div_le_lower_bound; lia. }
    destruct (2 ^ 63 * fl_den f <=? fl_num f); [reflexivity|].
    destruct (67768036191676799 <? fl_num f / fl_den f) eqn:E; [reflexivity|exfalso]. apply L. apply Z.ltb_ge in E.
    pose proof (Z.mul_succ_div_gt (fl_num f) (fl_den f) D). nia. }
  split.
  - intros c Hb He Hl L. specialize (T L). apply co_repr_ok in Hl. unfold packet_repr. rewrite Hb. unfold co_repr in *.
    assert (co_shown brief (mkCO (co_name c) (co_ptype c) (co_payload c) None (co_fcid c)) = co_shown brief c) as Es by (destruct c; reflexivity).
    rewrite Es in Hl. cbn [co_name co_ptype co_payload co_expiry co_fcid] in Hl. rewrite He. destruct (co_shown brief c) as [x|]; [|discriminate Hl]. cbn [bind] in *.
    destruct (opt_repr name_repr (co_name c)); [|discriminate]. cbn [bind opt_repr] in *. rewrite T. reflexivity.
  - intros kid pk Hc Ha L. specialize (T L). unfold packet_repr. rewrite Ha. cbn [opt_repr valg_repr].
    assert ((match p_body p with BCO c => co_repr brief c | BInterest _ => Ok tt end) = Ok tt) as ->.
    { destruct (p_body p) as [c|n]; [|reflexivity]. apply co_repr_ok. now apply Hc. }
    cbn [bind opt_repr]. exact T.
Qed.
Print Assumptions C76_times.

(* ---------------- the message of a failed traversal ---------------- *)

(* The second run differs from the first at most in the exception, and then by
   one that making a message raised. *)
Definition reported {S A} (raised : exn -> Prop) (x y : res A * S) : Prop :=
  snd y = snd x /\
  match fst x with
  | Ok a => fst y = Ok a
  | Err e => exists e', fst y = Err e' /\ (e' = e \/ raised e')
  end.
Lemma reported_same {S A} R (x : res A * S) : reported R x x.
Proof. split; [reflexivity|]. destruct (fst x); eauto. Qed.
Lemma reported_bind {S A B} R (x y : st S A) (k l : A -> st S B) s :
  reported R (x s) (y s) -> (forall a s', reported R (k a s') (l a s')) -> reported R (sbind x k s) (sbind y l s).
Proof.
  unfold sbind, reported at 1. intros (E & H) K. destruct (x s) as [[a|e] s'], (y s) as [r s'']; cbn [fst snd] in *; subst s''.
  - subst r. apply K.
  - destruct H as (e' & -> & H). split; [reflexivity|]. cbn [fst]. eauto.
Qed.
(* The messages that Traversal prints change neither what a traversal writes
   and counts nor whether it fails; only the exception may be another one, if
   making a message raises it. *)
Theorem C76_messages : forall P get wr msg odd fuel nm h s,
  reported (fun e => (exists x m, msg x m = Err e) \/ exists b, odd b = Err e)
    (traverse P get wr fuel nm h s) (traverse_msg P get wr msg odd fuel nm h s).
Proof.
  intros P get wr msg odd fuel nm h s. set (R := fun e => _). unfold traverse, traverse_msg.
  apply reported_bind; [apply reported_same|]. intros p s1. apply reported_bind; [apply reported_same|]. intros _ s2.
  match goal with |- reported R (preorder P get wr fuel ?c p s2) _ => generalize c end. revert p s2. induction fuel as [|f IH]; intros p s2 c; [apply reported_same|]. cbn [preorder preorder_msg].
  apply reported_bind; [apply reported_same|]. intros _ s3. destruct (p_body p) as [b|n]; [|apply reported_same].
  destruct (co_ptype b) as [t|]; [|apply reported_same]. destruct (t =? PT_MANIFEST).
  - apply reported_bind; [apply reported_same|]. intros m s4. apply reported_bind; [apply reported_same|]. intros m1 s5.
    apply reported_bind; [apply reported_same|]. intros c1 s6. destruct (man_hash_values m1) as (kids, e).
    assert (V : forall s, reported R (visit_children P get (preorder P get wr f c1) c1 kids s) (visit_children P get (preorder_msg P get wr msg odd f c1) c1 kids s)).
    { clear s6. induction kids as [|i kids IHk]; intros s6; [apply reported_same|]. cbn [visit_children].
      apply reported_bind; [apply reported_same|]. intros q s7. apply reported_bind; [apply reported_same|]. intros _ s8.
      apply reported_bind; [apply IH|]. intros _ s9. apply IHk. }
    assert (W : reported R ((_ <~ visit_children P get (preorder P get wr f c1) c1 kids ;; match e with Some e => lift (Err e) | None => sret tt end) s6)
      ((_ <~ visit_children P get (preorder_msg P get wr msg odd f c1) c1 kids ;; match e with Some e => lift (Err e) | None => sret tt end) s6)).
    { apply reported_bind; [apply V|]. intros _ s7. apply reported_same. }
    unfold reporting. destruct W as (W1 & W2).
    match goal with |- reported R ?a _ => set (A := a) in * end.
    match type of W1 with snd ?b = _ => set (B := b) in * end. destruct B as [[u|e1] sB]; cbn [fst snd] in *.
    + split; [exact W1|exact W2].
    + destruct (fst A) as [a|e0] eqn:EA; [discriminate|]. destruct W2 as (e' & [= <-] & D).
      destruct (msg e1 m1) as [|e2] eqn:Em; split; try exact W1; rewrite EA; cbn [fst]; eexists; (split; [reflexivity|]); [exact D|].
      right. left. eauto.
  - destruct (t =? PT_DATA); [apply reported_same|]. unfold sbind, lift. destruct (odd b) as [|e] eqn:Eo; [apply reported_same|].
    split; [reflexivity|]. cbn [fst]. eexists. split; [reflexivity|]. right. right. eauto.
Qed.
Print Assumptions C76_messages.

(* With the texts of the model a traversal that fails where all can be printed
   keeps its exception. *)
Theorem C76_message_texts : forall P get wr fuel nm h s e s',
  traverse P get wr fuel nm h s = (Err e, s') ->
  exists e', traverse_msg P get wr (fun _ m => man_repr m) (co_repr false) fuel nm h s = (Err e', s') /\
    (e' = e \/ (exists m, ~ legible_manifest m /\ man_repr m = Err e' /\ In e' text_exns) \/
     exists c, ~ legible_content false c /\ co_repr false c = Err e').
Proof.
  intros P get wr fuel nm h s e s' H.
  pose proof (C76_messages P get wr (fun _ m => man_repr m) (co_repr false) fuel nm h s) as (A & B). rewrite H in A, B. cbn [fst snd] in *.
  destruct B as (e' & B & D). exists e'. split; [destruct (traverse_msg _ _ _ _ _ _ _ _ _); cbn in *; congruence|].
  destruct D as [D|[(x & m & D)|(c & D)]]; [left; exact D|right; left|right; right].
  - exists m. split; [|split; [exact D|exact (man_repr_errs m e' D)]]. intros L. apply man_repr_ok in L. congruence.
  - exists c. split; [|exact D]. intros L. apply co_repr_ok in L. congruence.
Qed.
Print Assumptions C76_message_texts.

(* When making the message raises, that exception is what comes out: for an
   object of unknown payload type, and at the root manifest for whatever went
   wrong below. *)
Theorem C76_message_raises : forall P get wr msg odd fuel nm h s p b s1 e,
  get nm h = Ok p -> validate P p s = (Ok tt, s1) -> p_body p = BCO b ->
  (forall t, co_ptype b = Some t -> t <> PT_MANIFEST -> t <> PT_DATA -> odd b = Err e ->
     fst (traverse P get wr (S fuel) nm h s) = Err ValueError /\ fst (traverse_msg P get wr msg odd (S fuel) nm h s) = Err e) /\
  (forall m0 m s2 c e0, co_ptype b = Some PT_MANIFEST -> man_from_content b = Ok m0 ->
     t_decrypt P m0 (mkTs (ts_count s1 + 1) (ts_out s1) (ts_dc s1)) = (Ok m, s2) -> update_nc_cache [] m = Ok c ->
     (forall x, msg x m = Err e) ->
     fst (traverse P get wr (S fuel) nm h s) = Err e0 -> fst (traverse_msg P get wr msg odd (S fuel) nm h s) = Err e).
Proof.
  intros P get wr msg odd fuel nm h s p b s1 e Hg Hv Hb. split.
  - intros t Ht N1 N2 Ho. unfold traverse, traverse_msg, sbind, lift. rewrite Hg, Hv. cbn [preorder preorder_msg]. unfold sbind, smod, lift. rewrite Hb, Ht.
    destruct (t =? PT_MANIFEST) eqn:E1; [apply Z.eqb_eq in E1; congruence|]. destruct (t =? PT_DATA) eqn:E2; [apply Z.eqb_eq in E2; congruence|].
    rewrite Ho. split; reflexivity.
  - intros m0 m s2 c e0 Ht Hm Hd Hc Hmsg Hf.
    pose proof (C76_messages P get wr msg odd (S fuel) nm h s) as (_ & B). rewrite Hf in B. destruct B as (e' & B & _). revert B.
    unfold traverse_msg, sbind, lift. rewrite Hg, Hv. cbn [preorder_msg]. unfold sbind, smod, lift. rewrite Hb, Ht, Z.eqb_refl, Hm, Hd, Hc.
    destruct (man_hash_values m) as (kids, x). unfold reporting.
    match goal with |- fst (match ?X with _ => _ end) = _ -> _ => destruct X as [[u|e1] s3] end; [cbn [fst]; discriminate|].
    rewrite Hmsg. reflexivity.
Qed.
Print Assumptions C76_message_raises.

(* ---------------- packets that are accepted but cannot be printed ---------------- *)

Definition ex_wire (fields : list Z) : bytes := w_packet (frame 2 fields).
Definition ex_seg (b : list Z) : list Z := frame 0 (frame 1 b).
Definition ex_wires : list (bool * bytes) :=
  [ (* a name segment that is not UTF-8 *)
    (true, ex_wire (ex_seg [255] ++ frame 5 [1] ++ frame 1 [7]));
    (false, ex_wire (ex_seg [255] ++ frame 5 [1] ++ frame 1 [7]));
    (* no payload: only the brief form fails *)
    (true, ex_wire (ex_seg [97] ++ frame 5 [1]));
    (false, ex_wire (ex_seg [97] ++ frame 5 [1]));
    (* a manifest object without payload, with a payload that is not a manifest *)
    (true, ex_wire (frame 5 [3]));
    (true, ex_wire (frame 5 [3] ++ frame 1 [7]));
    (* a link object with a payload that is not a link *)
    (true, ex_wire (frame 5 [2] ++ frame 1 [7]));
    (* a hash group without pointers *)
    (true, ex_wire (frame 5 [3] ++ frame 1 (frame 1 (frame 1 []))));
    (* encryption mode 5 *)
    (true, ex_wire (frame 5 [3] ++ frame 1 (frame 0 (frame 0 (frame 0 [1] ++ frame 1 [2] ++ frame 2 [5])) ++ frame 2 [9] ++ frame 3 [9])));
    (* times of nine and more bytes *)
    (true, ex_wire (frame 6 (repeat 255 11) ++ frame 5 [1] ++ frame 1 [7]));
    (true, ex_wire (frame 6 (4 :: repeat 0 8) ++ frame 5 [1] ++ frame 1 [7]));
    (true, ex_wire (frame 6 (repeat 255 8) ++ frame 5 [1] ++ frame 1 [7])) ].
Definition ex_print (x : bool * bytes) : option (res unit) :=
  match packet_deserialize (mkFl 0 0) (snd x) with Ok p => Some (packet_repr (fst x) p) | Err _ => None end.
Example C76_ex : map ex_print ex_wires =
  [Some (Err ValueError); Some (Err ValueError); Some (Err TypeError); Some (Ok tt); Some (Err AttributeError); Some (Ok tt);
   Some (Err ParseError); Some (Err TypeError); Some (Err ValueError); Some (Err OverflowError); Some (Err OSError); Some (Ok tt)].
Proof. vm_compute. reflexivity. Qed.
Theorem C76_accepted_refuted : ~ forall now w p brief, packet_deserialize now w = Ok p -> packet_repr brief p = Ok tt.
Proof.
  intros H. set (w := ex_wire (ex_seg [255] ++ frame 5 [1] ++ frame 1 [7])).
  assert (exists p, packet_deserialize (mkFl 0 0) w = Ok p /\ packet_repr false p = Err ValueError) as (p & A & B)
    by (eexists; split; [vm_compute; reflexivity|vm_compute; reflexivity]).
  apply (H _ _ _ false) in A. congruence.
Qed.
Print Assumptions C76_accepted_refuted.

(* what manifest_writer writes, as packet_reader shows it; the hypotheses of
   C76_written are met as in C67_ex *)
Definition ex_shows (pretty : bool) (a : wargs toy) (r : cargs toy) (n : nat) (data : bytes) : list (option exn * bool * Z) :=
  let now := mkFl 0 0 in
  match writer_run toy ex_hash ex_fresh exact_log (fun _ => repeat 9 n) now a data (mkMst [] 0) with
  | (Ok root, s) => map (fun p => ex_shown (w <- packet_wire p ;; packet_show toy pretty r now w)) (ms_out s)
  | _ => []
  end.
Example C76_written_ex :
  ex_shows true (ex_wargs Segmented 400 ex_caes) ex_raes 8 (ex_bytes 100) = [(None, false, 0); (None, false, 1); (None, true, 1)] /\
  ex_shows false (ex_wargs Hashed 500 ex_cwrap) ex_rwrap 8 (ex_bytes 100) = [(None, false, 0); (Some ValueError, false, 0); (None, true, 1)].
Proof. split; vm_compute; reflexivity. Qed.
Lemma setup_met P hash fr now (a : wargs P) : match writer_setup P hash fr now a with Ok _ => true | Err _ => false end = true ->
  exists o d, writer_setup P hash fr now a = Ok (o, d) /\ legible_options o.
Proof.
  intros H. pose proof (setup_legible P hash fr now a) as L. destruct (writer_setup P hash fr now a) as [(o, d)|]; [|discriminate]. eauto.
Qed.
Example C76_build_ex :
  exists o d, writer_setup toy ex_hash ex_fresh (mkFl 0 0) (ex_wargs Segmented 400 ex_caes) = Ok (o, d) /\ legible_options o.
Proof. apply setup_met. vm_compute. reflexivity. Qed.

(* The root names a locator that is not UTF-8 and a child that is not there:
   the message about the missing child fails with another exception. *)
Definition ex_lost : manifest :=
  mkMan None (MNode (mkNode (Some (mkND None None (Some [mkLink (Some [mkComp 1 KBytes [255]]) None None]) [] []))
    [mkHG (Some (mkGD None None None None (Some 1) None)) (Some [mkHash T_SHA_256 (repeat 3 32)])] None)) None.
Definition ex_get (_ : option name) (h : option hashv) : res packet :=
  match h with
  | None => b <- man_wire ex_lost ;; create_content_object (mkCO None (Some PT_MANIFEST) (Some b) None None)
  | Some _ => Err FileNotFoundError
  end.
Definition ex_fate {A S} (x : res A * S) : option exn := match fst x with Ok _ => None | Err e => Some e end.
Example C76_messages_ex :
  ex_fate (traverse toy ex_get false 5 None None (tst_new toy None)) = Some KeyError /\
  ex_fate (traverse_msg toy ex_get false (fun _ m => man_repr m) (co_repr false) 5 None None (tst_new toy None)) = Some ValueError.
Proof. split; vm_compute; reflexivity. Qed.
(* the hypotheses of C76_times and C76_message_raises are met *)
Example C76_times_ex : exists p c f, packet_deserialize (mkFl 0 0) (ex_wire (ex_seg [97] ++ frame 6 (repeat 255 11) ++ frame 5 [1] ++ frame 1 [7])) = Ok p /\
  p_body p = BCO c /\ co_expiry c = Some f /\ legible_content true (mkCO (co_name c) (co_ptype c) (co_payload c) None (co_fcid c)) /\ ~ legible_time f.
Proof.
  do 3 eexists. split; [vm_compute; reflexivity|]. split; [reflexivity|]. split; [reflexivity|]. split; [apply co_repr_ok; vm_compute; reflexivity|].
  intros H. vm_compute in H. discriminate H.
Qed.
Definition ex_raises : bool :=
  match ex_get None None with
  | Ok p => match validate toy p (tst_new toy None), p_body p with
    | (Ok tt, s1), BCO b => match co_ptype b, man_from_content b with
      | Some t, Ok m0 => (t =? PT_MANIFEST) && match t_decrypt toy m0 (mkTs (ts_count s1 + 1) (ts_out s1) (ts_dc s1)) with
        | (Ok m, s2) => match update_nc_cache [] m, man_repr m with Ok _, Err ValueError => true | _, _ => false end
        | _ => false end
      | _, _ => false end
    | _, _ => false end
  | Err _ => false end.
Example C76_message_raises_ex : ex_raises = true.
Proof. vm_compute. reflexivity. Qed.
