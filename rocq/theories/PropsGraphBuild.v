(* C71: what a build counts and draws. *)
From Coq Require Import ZArith List Bool Lia ZifyBool.
From Verif Require Import Py Float Tlv Core TlvProofs CoreProofs Spec Flic FlicProofs Crypto CryptoProofs PropsCrypto
  Optimizer OptimizerProofs Tree TreeSpec TreeProofs TreeFacts PropsOptimizer PropsTree ChunkProofs SizeProofs PropsChunk
  BuildProofs Store StoreProofs PropsStore Traversal TraversalSpec TraversalProofs EndSpec EndProofs PropsEnd Uri Graph PropsGraph GraphBuild.
Import ListNotations.
Open Scope Z_scope.

(* ---------------- the build itself does not change ---------------- *)

(* the name can be written as a label *)
Definition labelable (orep : comp -> text) (nm : option name) : Prop :=
  forall h, exists l, label_from_name orep h nm = Ok l.

Lemma plain_run {S A} (m : st S A) s ob : plain m (s, ob) = (fst (m s), (snd (m s), ob)).
Proof. unfold plain. cbn [fst snd]. destruct (m s). reflexivity. Qed.

Section Sim.
(* when labels can be written *)
Variable L : Prop.

Definition same_kind (a b : obs) : Prop := ob_graph a = None <-> ob_graph b = None.
(* xm does on s what m does, or it fails because of a label *)
Definition sim {S A} (m : st S A) (xm : st (S * obs) A) (s : S) : Prop :=
  forall ob, (exists ob', xm (s, ob) = (fst (m s), (snd (m s), ob')) /\ same_kind ob ob') \/
             (ob_graph ob <> None /\ ~ L /\ exists e y, xm (s, ob) = (Err e, y)).
(* m succeeds, or fails because of a label *)
Definition quiet (m : st obs unit) : Prop :=
  forall ob, (exists ob', m ob = (Ok tt, ob') /\ same_kind ob ob') \/
             (ob_graph ob <> None /\ ~ L /\ exists e y, m ob = (Err e, y)).

Lemma kind_refl ob : same_kind ob ob.
Proof. unfold same_kind. tauto. Qed.
Lemma kind_trans a b c : same_kind a b -> same_kind b c -> same_kind a c.
Proof. unfold same_kind. tauto. Qed.
Lemma sim_plain {S A} (m : st S A) s : sim m (plain m) s.
Proof. intros ob. left. exists ob. split; [apply plain_run|apply kind_refl]. Qed.
Lemma sim_lift {S A} (r : res A) (s : S) : sim (lift r) (lift r) s.
Proof. intros ob. left. exists ob. split; [reflexivity|apply kind_refl]. Qed.
Lemma sim_ret {S A} (a : A) (s : S) : sim (sret a) (sret a) s.
Proof. intros ob. left. exists ob. split; [reflexivity|apply kind_refl]. Qed.
Lemma sim_bind {S A B} (m : st S A) xm (k : A -> st S B) xk s : sim m xm s ->
  (forall a s', m s = (Ok a, s') -> sim (k a) (xk a) s') -> sim (sbind m k) (sbind xm xk) s.
Proof.
  intros Hm Hk ob. unfold sbind. destruct (Hm ob) as [(ob1 & E & K)|(G & N & e & y & E)].
  - rewrite E. destruct (m s) as [[a|e] s'] eqn:Em; cbn [fst snd].
    + destruct (Hk a s' eq_refl ob1) as [(ob2 & E2 & K2)|(G2 & N & e & y & E2)].
      * left. exists ob2. split; [exact E2|eapply kind_trans; eauto].
      * right. split; [unfold same_kind in K; tauto|]. split; [exact N|]. rewrite E2. eauto.
    + left. exists ob1. auto.
  - right. rewrite E. split; [exact G|]. split; [exact N|]. exists e. destruct y. eauto.
Qed.
Lemma sim_seen {S A} q (m : st S A) xm s : quiet q -> sim m xm s -> sim m (sbind (seen q) (fun _ => xm)) s.
Proof.
  intros Hq Hm ob. unfold sbind, seen. cbn [fst snd]. destruct (Hq ob) as [(ob1 & E & K)|(G & N & e & y & E)]; rewrite E.
  - destruct (Hm ob1) as [(ob2 & E2 & K2)|(G2 & N & e & y & E2)].
    + left. exists ob2. split; [exact E2|eapply kind_trans; eauto].
    + right. split; [unfold same_kind in K; tauto|]. split; [exact N|]. rewrite E2. eauto.
  - right. split; [exact G|]. split; [exact N|]. eauto.
Qed.
Lemma sim_after {S A} (m : st S A) xm q s : sim m xm s -> (forall a s', m s = (Ok a, s') -> quiet (q a)) ->
  sim m (a <~ xm ;; _ <~ seen (q a) ;; sret a) s.
Proof.
  intros Hm Hq ob. assert (sim (a <~ m ;; sret a) (a <~ xm ;; _ <~ seen (q a) ;; sret a) s) as H.
  { apply sim_bind; [exact Hm|]. intros a s' E. apply sim_seen; [eapply Hq; exact E|apply sim_ret]. }
  assert ((a <~ m ;; sret a) s = m s) as E by (unfold sbind, sret; destruct (m s) as [[a|e] s']; reflexivity).
  destruct (H ob) as [(ob' & E' & K)|H']; [left; exists ob'; rewrite E in E'; auto|right; exact H'].
Qed.

Variable orep : comp -> text.
Lemma quiet_add b h ks nm : (exists l, ks = Ok l) -> (L -> labelable orep nm) -> quiet (graphed (add_entry orep b h ks nm)).
Proof.
  intros (l & ->) HL ob. unfold graphed. destruct (ob_graph ob) as [g|] eqn:Eg; [|left; exists ob; split; [reflexivity|apply kind_refl]].
  unfold add_entry. assert (forall g', same_kind ob (mkObs (Some g') (ob_cnt ob) (ob_bytes ob))) as K.
  { intros g'. unfold same_kind. cbn [ob_graph]. rewrite Eg. split; discriminate. }
  destruct (gr_paused g); [left; eexists; split; [reflexivity|apply K]|]. cbn [bind].
  destruct (label_from_name orep h nm) as [t|e] eqn:El; cbn [bind]; [left; eexists; split; [reflexivity|apply K]|].
  right. split; [discriminate|]. split; [|eauto]. intros HL'. destruct (HL HL' h) as (t & E). congruence.
Qed.
Lemma quiet_graph f : quiet (graphed (smod f)).
Proof.
  intros ob. left. unfold graphed, smod. destruct (ob_graph ob) as [g|] eqn:Eg; eexists; (split; [reflexivity|]); unfold same_kind; cbn [ob_graph]; rewrite ?Eg; split; congruence.
Qed.
Lemma quiet_bind q1 q2 : quiet q1 -> quiet q2 -> quiet (sbind q1 (fun _ => q2)).
Proof.
  intros H1 H2 ob. unfold sbind. destruct (H1 ob) as [(ob1 & E & K)|(G & N & e & y & E)]; rewrite E; [|right; eauto].
  destruct (H2 ob1) as [(ob2 & E2 & K2)|(G2 & N & e & y & E2)]; rewrite E2.
  - left. exists ob2. split; [reflexivity|eapply kind_trans; eauto].
  - right. split; [unfold same_kind in K; tauto|]. eauto.
Qed.

Variable P : prims.
Definition pointed (n : node) : Prop := exists l, node_hash_values n = Ok l.
Lemma quiet_manifest n p h : packet_hash (pr_sha P) p = Ok h -> pointed n -> (L -> labelable orep (body_name p)) -> quiet (see_manifest P orep n p).
Proof.
  intros Hh Hn HL ob. unfold see_manifest, sbind, lift. rewrite Hh. apply quiet_add; assumption.
Qed.
Lemma quiet_data c : quiet (see_data orep c).
Proof. apply quiet_add; [eauto|]. intros _ h. eexists. reflexivity. Qed.
Lemma quiet_packet n p h l : packet_hash (pr_sha P) p = Ok h -> packet_len p = Ok l -> pointed n -> (L -> labelable orep (body_name p)) ->
  quiet (see_packet P orep n p).
Proof.
  intros Hh Hl Hn HL. unfold see_packet. apply quiet_bind; [eapply quiet_manifest; eassumption|].
  intros ob. left. unfold sbind, lift, smod. rewrite Hl. eexists. split; [reflexivity|]. unfold same_kind. cbn [ob_graph]. tauto.
Qed.

Variable clog : Z -> Z -> Z -> Z.
Variable rnd : nat -> bytes.
Variable now : fl.

Lemma co_len_ok c p : create_content_object c = Ok p -> exists l, packet_len p = Ok l.
Proof.
  unfold create_content_object. intros H. apply bind_ok in H as (t & _ & H). apply bind_ok in H as (w & Ew & H). apply Ok_inj in H. subst p.
  unfold packet_len. rewrite Ew. eexists. reflexivity.
Qed.
Lemma fac_packet_facts (o : opts P) src defs a b c d e nm ex sg inc k p k' :
  fac_packet P rnd now o src defs a b c d e nm ex sg inc k = (Ok p, k') ->
  body_name p = nm /\ (exists h, packet_hash (pr_sha P) p = Ok h) /\ exists l, packet_len p = Ok l.
Proof.
  unfold fac_packet. unfold sbind at 1. destruct (fac_build P rnd o src defs a b c d e inc k) as [[m|er] k1]; [|discriminate].
  unfold sbind, lift, sret. destruct (man_content m nm ex) as [ct|er] eqn:Ec; [|discriminate].
  assert (co_name ct = nm) as En.
  { unfold man_content in Ec. apply bind_ok in Ec as (w & _ & Ec). apply bind_ok in Ec as (? & _ & Ec). apply bind_ok in Ec as (? & _ & Ec).
    apply Ok_inj in Ec. now subst ct. }
  destruct sg.
  - destruct (op_signer o) as [s|]; [|discriminate]. destruct (sign_content P s now ct) as [q|er] eqn:Es; [|discriminate].
    destruct (packet_hash (pr_sha P) q) as [h|er] eqn:Eh; [|discriminate]. intros [= <- _].
    apply sign_content_ok in Es as (al & tc & ta & vp & _ & _ & _ & _ & Hb & _ & _ & Hc).
    split; [unfold body_name; now rewrite Hb|]. split; [eauto|]. unfold create_signed_content_object in Hc.
    repeat (apply bind_ok in Hc as (? & ? & Hc)). apply Ok_inj in Hc. subst q. unfold packet_len.
    match goal with H : packet_wire _ = Ok _ |- _ => rewrite H end. eexists. reflexivity.
  - destruct (create_content_object ct) as [q|er] eqn:Es; [|discriminate].
    destruct (packet_hash (pr_sha P) q) as [h|er] eqn:Eh; [|discriminate]. intros [= <- _]. split; [|split; [eauto|eapply co_len_ok; exact Es]].
    apply create_co_ok in Es as (t & _ & -> & _). exact En.
Qed.

Lemma hb_group_ptrs b nc s l u g : hb_group b nc s l u = Ok g -> hg_ptrs g = Some (hb_ptrs b).
Proof. unfold hb_group. intros H. apply bind_ok in H as (t & _ & H). apply Ok_inj in H. now subst g. Qed.
Lemma groups_pointed nd gs z : Forall (fun g => hg_ptrs g <> None) gs -> pointed (mkNode nd gs z).
Proof.
  intros F. unfold pointed. rewrite node_hash_values_spec. cbn [n_groups].
  replace (forallb _ gs) with true; [eauto|]. symmetry. apply forallb_forall. rewrite Forall_forall in F. intros g I. specialize (F g I). destruct (hg_ptrs g); [reflexivity|congruence].
Qed.
Lemma pr_groups_ptrs x b l u ds is gs : pr_groups x b l u ds is = Ok gs -> Forall (fun g => hg_ptrs g <> None) gs.
Proof.
  destruct b as [b|d i]; cbn [pr_groups]; intros H.
  - apply bind_ok in H as (? & _ & H). apply bind_ok in H as (? & _ & H). apply bind_ok in H as (g & Hg & H). apply Ok_inj in H. subst gs.
    constructor; [|constructor]. rewrite (hb_group_ptrs _ _ _ _ _ _ Hg). discriminate.
  - apply bind_ok in H as (g & Hg & H). apply bind_ok in H as (g' & Hg' & H). apply Ok_inj in H. subst gs.
    constructor; [|constructor; [|constructor]]; [rewrite (hb_group_ptrs _ _ _ _ _ _ Hg)|rewrite (hb_group_ptrs _ _ _ _ _ _ Hg')]; discriminate.
Qed.
Lemma ref_groups_ptrs x num gs : ref_groups x num = Ok gs -> Forall (fun g => hg_ptrs g <> None) gs.
Proof.
  unfold ref_groups. intros H. apply bind_ok in H as (b & _ & H). apply bind_ok in H as (b' & _ & H). eapply pr_groups_ptrs. exact H.
Qed.

Lemma sim_ref o x total num k : sim (ref_packet P rnd now o x total num) (x_ref_packet P rnd now orep o x total num) k.
Proof.
  unfold ref_packet, x_ref_packet. apply sim_bind; [apply sim_lift|]. intros gs k1 E. unfold lift in E. injection E as E <-.
  apply sim_after; [apply sim_plain|]. intros p k2 F. apply fac_packet_facts in F as (N & (h & Hh) & l & Hl).
  eapply quiet_packet; [exact Hh|exact Hl|apply groups_pointed; eapply ref_groups_ptrs; exact E|]. rewrite N. intros _ h'. eexists. reflexivity.
Qed.
Lemma sim_max o x total k : sim (max_pointers P rnd now o x total) (x_max_pointers P rnd now orep o x total) k.
Proof.
  unfold max_pointers, x_max_pointers. apply sim_bind; [apply sim_lift|]. intros t k1 _. apply sim_bind; [apply sim_ref|]. intros p k2 _.
  apply sim_bind; [apply sim_lift|]. intros l k3 _. apply sim_bind; [apply sim_lift|]. intros _ k4 _. apply sim_bind; [apply sim_lift|]. intros q k5 _. cbv zeta.
  apply sim_bind; [apply sim_ref|]. intros p' k6 _. apply sim_bind; [apply sim_lift|]. intros l' k7 _. apply sim_bind; [apply sim_lift|]. intros _ k8 _.
  apply sim_bind; [apply sim_lift|]. intros _ k9 _. apply sim_ret.
Qed.
Lemma sim_params o x n total k : sim (tree_params P clog rnd now o x n total) (x_tree_params P clog rnd now orep o x n total) k.
Proof.
  unfold tree_params, x_tree_params. apply sim_bind; [apply sim_max|]. intros p k1 _. apply sim_bind; [apply sim_lift|]. intros _ k2 _. apply sim_lift.
Qed.
Lemma sim_optimal o x n total k : sim (tree_params P clog rnd now o x n total) (x_optimal P clog rnd now orep o x n total) k.
Proof.
  unfold x_optimal. apply sim_seen; [apply quiet_graph|]. apply (sim_after _ _ (fun _ => graph_resume_obs)); [apply sim_params|]. intros a s' _. apply quiet_graph.
Qed.

(* the builder *)
Variable v : tenv P.
Hypothesis Hman : L -> forall id nm, impl_name (nx_man (te_ctx v)) (Some id) = Ok nm -> labelable orep nm.

Lemma sbind_ok {S A B} (m : st S A) (k : A -> st S B) s b s' : sbind m k s = (Ok b, s') -> exists a s1, m s = (Ok a, s1) /\ k a s1 = (Ok b, s').
Proof. unfold sbind. destruct (m s) as [[a|e] s1]; [eauto|discriminate]. Qed.
Lemma next_name_ok level s nm s' : next_name P v level s = (Ok nm, s') -> exists id, impl_name (nx_man (te_ctx v)) (Some id) = Ok nm.
Proof.
  unfold next_name. intros H. apply sbind_ok in H as (? & ? & _ & H). apply sbind_ok in H as (? & ? & _ & H). apply sbind_ok in H as ([id ids] & ? & _ & H).
  apply sbind_ok in H as (? & ? & _ & H). apply sbind_ok in H as (? & ? & _ & H). unfold lift in H. injection H as H _. eauto.
Qed.
Lemma run_fac_ok {A} (m : st nat A) s a s' : run_fac m s = (Ok a, s') -> exists k', m (b_nonce s) = (Ok a, k') /\ s' = set_nonce k' s.
Proof. unfold run_fac. destruct (m (b_nonce s)) as [r k]. intros [= -> <-]. eauto. Qed.
Definition good_result (np : node * packet) : Prop :=
  (exists h, packet_hash (pr_sha P) (snd np) = Ok h) /\ pointed (fst np) /\ (L -> labelable orep (body_name (snd np))).
Lemma sim_packet gs ds is level s : Forall (fun g => hg_ptrs g <> None) gs ->
  sim (tb_packet P rnd now v gs ds is level) (x_packet P rnd now orep v gs ds is level) s /\
  forall np s', tb_packet P rnd now v gs ds is level s = (Ok np, s') -> good_result np.
Proof.
  intros F. unfold tb_packet, x_packet. cbv zeta. split.
  - apply sim_bind; [apply sim_lift|]. intros t s1 _. apply sim_bind; [apply sim_plain|]. intros nm s2 E. apply sim_bind; [apply sim_plain|]. intros p s3 F'.
    apply next_name_ok in E as (id & E). apply run_fac_ok in F' as (k & F' & _). apply fac_packet_facts in F' as (N & (h & Hh) & l & Hl).
    apply sim_seen; [|apply sim_ret]. eapply quiet_packet; [exact Hh|exact Hl|apply groups_pointed; exact F|]. rewrite N. intros HL. eapply Hman; eassumption.
  - intros np s' H. apply sbind_ok in H as (? & ? & _ & H). apply sbind_ok in H as (nm & ? & E & H). apply sbind_ok in H as (p & ? & F' & H).
    injection H as <- _. apply next_name_ok in E as (id & E). apply run_fac_ok in F' as (k & F' & _). apply fac_packet_facts in F' as (N & (h & Hh) & l & Hl).
    split; [eauto|]. split; [apply groups_pointed; exact F|]. cbn [snd]. rewrite N. intros HL. eapply Hman; eassumption.
Qed.
Lemma sim_leaf_loop l : forall b s,
  sim (lift (foldM (fun b i => c <- meta_at P v i ;; hb_append_direct b (cm_hash c) (Some (cm_bytes c))) b l)) (x_leaf_loop P orep v b l) s.
Proof.
  induction l as [|i l IH]; intros b s; cbn [foldM x_leaf_loop]; [apply sim_ret|].
  destruct (meta_at P v i) as [c|e]; cbn [bind].
  2:{ intros ob. left. exists ob. split; [reflexivity|apply kind_refl]. }
  assert (X : sim (lift (r <- hb_append_direct b (cm_hash c) (Some (cm_bytes c)) ;; foldM (fun b i => c <- meta_at P v i ;; hb_append_direct b (cm_hash c) (Some (cm_bytes c))) r l))
    (b <~ lift (hb_append_direct b (cm_hash c) (Some (cm_bytes c))) ;; x_leaf_loop P orep v b l) s).
  { destruct (hb_append_direct b (cm_hash c) (Some (cm_bytes c))) as [b'|e]; cbn [bind]; [exact (IH b' s)|].
    intros ob. left. exists ob. split; [reflexivity|apply kind_refl]. }
  exact (sim_seen _ _ _ s (quiet_data c) X).
Qed.
Lemma sim_leaf_packet head tail level s :
  sim (tb_leaf_packet P rnd now v head tail level) (x_leaf_packet P rnd now orep v head tail level) s /\
  forall np s', tb_leaf_packet P rnd now v head tail level s = (Ok np, s') -> good_result np.
Proof.
  unfold tb_leaf_packet, x_leaf_packet. split.
  - apply sim_bind; [apply sim_lift|]. intros _ s1 _. apply sim_bind; [apply sim_leaf_loop|]. intros b s2 _. apply sim_bind; [apply sim_lift|]. intros sid s3 _.
    apply sim_bind; [apply sim_lift|]. intros g s4 E. unfold lift in E. injection E as E _. apply sim_bind; [apply sim_plain|]. intros _ s5 _.
    apply sim_packet. constructor; [|constructor]. rewrite (hb_group_ptrs _ _ _ _ _ _ E). discriminate.
  - intros np s' H. apply sbind_ok in H as (? & ? & _ & H). apply sbind_ok in H as (b & ? & _ & H). apply sbind_ok in H as (sid & ? & _ & H).
    apply sbind_ok in H as (g & ? & E & H). apply sbind_ok in H as (? & s5 & _ & H). unfold lift in E. injection E as E _.
    eapply sim_packet; [|exact H]. constructor; [|constructor]. rewrite (hb_group_ptrs _ _ _ _ _ _ E). discriminate.
Qed.
Lemma quiet_result np : good_result np -> quiet (see_manifest P orep (fst np) (snd np)).
Proof. intros ((h & Hh) & Hp & HL). eapply quiet_manifest; eassumption. Qed.
Lemma sim_leaf level s : sim (tb_leaf P rnd now v level) (x_leaf P rnd now orep v level) s.
Proof.
  unfold tb_leaf, x_leaf. apply sim_bind; [apply sim_plain|]. intros s0 s1 _. cbv zeta. apply sim_bind; [apply sim_leaf_packet|]. intros np s2 E.
  apply sim_leaf_packet in E. apply sim_bind; [apply sim_plain|]. intros _ s3 _. apply sim_seen; [now apply quiet_result|].
  apply sim_bind; [apply sim_plain|]. intros _ s4 _. apply sim_ret.
Qed.
Lemma sim_indirect_loop child xchild : (forall s, sim child xchild s) -> forall fuel b s,
  sim (indirect_loop P fuel v child b) (x_indirect_loop P fuel v xchild b) s.
Proof.
  intros Hc. induction fuel as [|f IH]; intros b s; cbn [indirect_loop x_indirect_loop]; (apply sim_bind; [apply sim_plain|]; intros s0 s1 _); destruct (_ && _); try apply sim_ret; [apply sim_lift|].
  apply sim_bind; [apply Hc|]. intros np s2 _. apply sim_bind; [apply sim_lift|]. intros b' s3 _. apply IH.
Qed.
Lemma sim_add_indirect child xchild b s : (forall s, sim child xchild s) -> sim (add_indirect P v child b) (x_add_indirect P v xchild b) s.
Proof.
  intros Hc. unfold add_indirect, x_add_indirect. apply sim_bind; [apply sim_plain|]. intros s0 s1 _. cbv zeta. apply sim_bind; [apply sim_plain|]. intros _ s2 _.
  apply sim_bind; [apply sim_plain|]. intros s3 s4 _. apply sim_bind; [now apply sim_indirect_loop|]. intros b' s5 _. apply sim_bind; [apply sim_plain|]. intros _ s6 _. apply sim_ret.
Qed.
Lemma sim_direct_loop : forall fuel b least s, sim (direct_loop P fuel v b least) (x_direct_loop P orep fuel v b least) s.
Proof.
  induction fuel as [|f IH]; intros b least s; cbn [direct_loop x_direct_loop]; (apply sim_bind; [apply sim_plain|]; intros s0 s1 _); destruct (_ && _); try apply sim_ret; [apply sim_lift|].
  apply sim_bind; [apply sim_lift|]. intros c s2 _. apply sim_seen; [apply quiet_data|]. apply sim_bind; [apply sim_lift|]. intros b' s3 _.
  apply sim_bind; [apply sim_plain|]. intros _ s4 _. apply IH.
Qed.
Lemma sim_interior_packet b ds level s :
  sim (tb_interior_packet P rnd now v b ds level) (x_interior_packet P rnd now orep v b ds level) s /\
  forall np s', tb_interior_packet P rnd now v b ds level s = (Ok np, s') -> good_result np.
Proof.
  unfold tb_interior_packet, x_interior_packet. split.
  - apply sim_bind; [apply sim_plain|]. intros s0 s1 _. apply sim_bind; [apply sim_lift|]. intros is s2 _. cbv zeta. apply sim_bind; [apply sim_lift|]. intros gs s3 E.
    unfold lift in E. injection E as E _. apply sim_packet. eapply pr_groups_ptrs. exact E.
  - intros np s' H. apply sbind_ok in H as (? & ? & _ & H). apply sbind_ok in H as (is & ? & _ & H). cbv zeta in H. apply sbind_ok in H as (gs & ? & E & H).
    unfold lift in E. injection E as E _. eapply sim_packet; [|exact H]. eapply pr_groups_ptrs. exact E.
Qed.
Lemma sim_interior child xchild level right s : (forall s, sim child xchild s) ->
  sim (tb_interior P rnd now v child level right) (x_interior P rnd now orep v xchild level right) s.
Proof.
  intros Hc. unfold tb_interior, x_interior. cbv zeta. apply sim_bind; [apply sim_lift|]. intros b s1 _. apply sim_bind; [now apply sim_add_indirect|]. intros b' s2 _.
  apply sim_bind; [|intros [b2 ds] s3 _].
  { unfold add_direct, x_add_direct. apply sim_bind; [apply sim_plain|]. intros s0 s3 _. apply sim_direct_loop. }
  apply sim_bind; [apply sim_interior_packet|]. intros np s4 E. apply sim_interior_packet in E. apply sim_seen; [now apply quiet_result|].
  apply sim_bind; [apply sim_plain|]. intros _ s5 _. apply sim_bind; [apply sim_plain|]. intros _ s6 _. apply sim_ret.
Qed.
Lemma sim_bottom_up level : forall right s, sim (bottom_up P rnd now v level right) (x_bottom_up P rnd now orep v level right) s.
Proof.
  induction level as [|l IH]; intros right s; cbn [bottom_up x_bottom_up].
  - apply sim_bind; [apply sim_lift|]. intros _ s1 _. apply sim_leaf.
  - apply sim_bind; [apply sim_plain|]. intros s0 s1 _. destruct (_ && _); [apply sim_leaf|]. apply sim_interior. intros s2. apply IH.
Qed.
Lemma sim_build_loop fuel : forall level root s, sim (build_loop P rnd now fuel v level root) (x_build_loop P rnd now orep fuel v level root) s.
Proof.
  induction fuel as [|f IH]; intros level root s; cbn [build_loop x_build_loop]; (apply sim_bind; [apply sim_plain|]; intros s0 s1 _); destruct (seg_empty s0); try apply sim_ret; [apply sim_lift|].
  apply sim_bind; [apply sim_bottom_up|]. intros r s2 _. apply IH.
Qed.
Lemma sim_build s : sim (tb_build P rnd now v) (x_build P rnd now orep v) s.
Proof.
  unfold tb_build, x_build. apply sim_bind; [apply sim_plain|]. intros _ s1 _. apply sim_bind; [apply sim_leaf|]. intros r s2 _. apply sim_bind; [apply sim_plain|].
  intros s0 s3 _. apply sim_build_loop.
Qed.
Lemma sim_build_top s : sim (build_top P rnd now v) (x_build_top P rnd now orep v) s.
Proof.
  intros ob. unfold build_top, x_build_top. cbn [fst snd]. destruct (tb_init P v (ms_out s) (ms_nonce s)) as [b0|e]; [|left; exists ob; split; [reflexivity|apply kind_refl]].
  destruct (sim_build b0 ob) as [(ob' & E & K)|(G & N & e & [b y] & E)]; rewrite E.
  - destruct (tb_build P rnd now v b0) as [r b]. cbn [fst snd]. left. exists ob'. split; [reflexivity|exact K].
  - right. split; [exact G|]. split; [exact N|]. cbn [bind]. eauto.
Qed.
End Sim.

(* ---------------- what is counted and drawn ---------------- *)

Section Spec.
Context {P : prims}.
Variable o : opts P.
Variable orep : comp -> text.

(* the lengths of the packets add up to n *)
Definition lengths (ps : list packet) (n : Z) : Prop :=
  exists ls, Forall2 (fun p l => packet_len p = Ok l) ps ls /\ n = zsum ls.
(* what the graph shows about a packet *)
Definition shown (p : packet) (h : hashv) (e : gentry) : Prop :=
  packet_hash (pr_sha P) p = Ok h /\ ge_parent e = h /\
  ((is_data_object p /\ ge_data e = true /\ ge_kids e = [] /\ ge_label e = short h) \/
   exists nd, holds_node o p nd /\ ge_data e = false /\ ge_kids e = node_ptrs nd /\
     label_from_name orep h (body_name p) = Ok (ge_label e)).
End Spec.

Section Trace.
Context {P : prims}.
Variable o : opts P.
Variable rnd : nat -> bytes.
Variable now : fl.
Variable orep : comp -> text.

Definition put_all (es d : list (hashv * gentry)) : list (hashv * gentry) :=
  fold_left (fun d x => odict_set hashv_key_eqb (fst x) (snd x) d) es d.
Definition counted (ob ob' : obs) (ps : list packet) : Prop :=
  ob_cnt ob' = ob_cnt ob + zlen ps /\ exists n, lengths ps n /\ ob_bytes ob' = ob_bytes ob + n.
Definition drawn (ob ob' : obs) (Q : list (hashv * gentry) -> Prop) : Prop :=
  match ob_graph ob with
  | None => ob_graph ob' = None
  | Some g => if gr_paused g then ob_graph ob' = Some g
              else exists es g', Q es /\ ob_graph ob' = Some g' /\ gr_paused g' = false /\
                     gr_entries g' = put_all es (gr_entries g) /\ (current g -> current g')
  end.
Lemma counted_nil ob ob' : ob_cnt ob' = ob_cnt ob -> ob_bytes ob' = ob_bytes ob -> counted ob ob' [].
Proof. intros A B. split; [rewrite zlen_nil; lia|]. exists 0. split; [exists []; split; [constructor|reflexivity]|lia]. Qed.
Lemma zsum_app a b : zsum (a ++ b) = zsum a + zsum b.
Proof. induction a as [|x a IH]; [reflexivity|]. cbn [app zsum fold_right]. unfold zsum in IH |- *. cbn [fold_right app]. rewrite IH. lia. Qed.
Lemma lengths_app a b n m : lengths a n -> lengths b m -> lengths (a ++ b) (n + m).
Proof. intros (l & F & ->) (l' & F' & ->). exists (l ++ l'). split; [now apply Forall2_app|]. symmetry. apply zsum_app. Qed.
Lemma counted_trans a b c ps qs : counted a b ps -> counted b c qs -> counted a c (ps ++ qs).
Proof.
  intros (A & n & Ln & Bn) (A' & m & Lm & Bm). split; [rewrite zlen_app; lia|]. exists (n + m). split; [now apply lengths_app|lia].
Qed.
Lemma drawn_trans a b c (Q1 Q2 Q : list (hashv * gentry) -> Prop) : (forall es1 es2, Q1 es1 -> Q2 es2 -> Q (es1 ++ es2)) -> drawn a b Q1 -> drawn b c Q2 -> drawn a c Q.
Proof.
  unfold drawn. intros HQ. destruct (ob_graph a) as [g|].
  - destruct (gr_paused g) eqn:Ep.
    + intros ->. rewrite Ep. auto.
    + intros (es & g1 & H1 & -> & -> & E1 & C1) (es2 & g2 & H2 & -> & P2 & E2 & C2). exists (es ++ es2), g2. split; [auto|]. split; [reflexivity|].
      split; [exact P2|]. split; [|auto]. unfold put_all in *. rewrite fold_left_app, E2, E1. reflexivity.
  - intros ->. auto.
Qed.
Lemma drawn_same a b (Q : _ -> Prop) : Q [] -> ob_graph b = ob_graph a -> drawn a b Q.
Proof.
  intros H E. unfold drawn. rewrite E. destruct (ob_graph a) as [g|]; [|reflexivity]. destruct (gr_paused g) eqn:Ep; [reflexivity|]. exists [], g. auto.
Qed.
Lemma drawn_add b h ks nm ob ob' : graphed (add_entry orep b h ks nm) ob = (Ok tt, ob') ->
  ob_cnt ob' = ob_cnt ob /\ ob_bytes ob' = ob_bytes ob /\
  drawn ob ob' (fun es => exists l t, ks = Ok l /\ label_from_name orep h nm = Ok t /\ es = [(h, mkEntry b h t l)]).
Proof.
  unfold graphed, drawn, add_entry. destruct (ob_graph ob) as [g|] eqn:Eg; [|intros [= <-]; auto].
  destruct (gr_paused g) eqn:Ep; [intros [= <-]; auto|]. destruct ks as [l|e]; cbn [bind]; [|discriminate].
  destruct (label_from_name orep h nm) as [t|e]; cbn [bind]; [|discriminate]. intros [= <-]. cbn [ob_cnt ob_bytes ob_graph].
  do 2 (split; [reflexivity|]). eexists _, _. split; [exists l, t; auto|]. split; [reflexivity|]. cbn [gr_paused gr_entries put_all fold_left fst snd].
  do 2 (split; [reflexivity|]). intros _ d [=].
Qed.

Definition rec_data (c : cmeta) : hashv * gentry := (cm_hash c, mkEntry true (cm_hash c) (short (cm_hash c)) []).
Definition rec_man (p : packet) (x : hashv * gentry) : Prop :=
  exists nd h t, holds_node o p nd /\ packet_hash (pr_sha P) p = Ok h /\ label_from_name orep h (body_name p) = Ok t /\
    x = (h, mkEntry false h t (node_ptrs nd)).
Lemma data_trace c ob ob' : see_data orep c ob = (Ok tt, ob') -> counted ob ob' [] /\ drawn ob ob' (fun es => es = [rec_data c]).
Proof.
  intros H. apply drawn_add in H as (A & B & D). split; [now apply counted_nil|]. unfold drawn in *. destruct (ob_graph ob) as [g|]; [|exact D].
  destruct (gr_paused g); [exact D|]. destruct D as (es & g' & (l & t & [= <-] & [= <-] & ->) & D). exists [rec_data c], g'. split; [reflexivity|exact D].
Qed.
Lemma man_trace n p ob ob' : holds_node o p n -> see_manifest P orep n p ob = (Ok tt, ob') ->
  counted ob ob' [] /\ drawn ob ob' (fun es => exists x, rec_man p x /\ ge_kids (snd x) = node_ptrs n /\ es = [x]).
Proof.
  intros Hn H. unfold see_manifest in H. apply sbind_ok in H as (h & ob1 & H1 & H). injection H1 as H1 <-.
  apply drawn_add in H as (A & B & D). split; [now apply counted_nil|]. unfold drawn in *. destruct (ob_graph ob) as [g|]; [|exact D].
  destruct (gr_paused g); [exact D|]. destruct D as (es & g' & (l & t & El & Et & ->) & D). eexists _, g'. split; [|exact D].
  rewrite node_hash_values_spec in El. destruct (forallb _ _); [|discriminate]. injection El as <-.
  eexists. split; [|split; [|reflexivity]; reflexivity]. exists n, h, t. split; [exact Hn|]. split; [exact H1|]. split; [exact Et|]. reflexivity.
Qed.
Lemma packet_trace n p ob ob' : holds_node o p n -> see_packet P orep n p ob = (Ok tt, ob') ->
  counted ob ob' [p] /\ drawn ob ob' (fun es => exists x, rec_man p x /\ ge_kids (snd x) = node_ptrs n /\ es = [x]).
Proof.
  intros Hn H. unfold see_packet in H. apply sbind_ok in H as ([] & ob1 & H1 & H). apply sbind_ok in H as (l & ob2 & H2 & H).
  injection H2 as H2 <-. injection H as <-. apply man_trace in H1 as (C & D); [|exact Hn]. split.
  - change [p] with ([] ++ [p]). eapply counted_trans; [exact C|]. split; [reflexivity|]. exists l. split; [|reflexivity].
    exists [l]. split; [repeat constructor; exact H2|unfold zsum; cbn [fold_right]; lia].
  - exact D.
Qed.

Lemma plain_ok {S A} (m : st S A) s ob a y : plain m (s, ob) = (Ok a, y) -> m s = (Ok a, fst y) /\ snd y = ob.
Proof. rewrite plain_run. destruct (m s) as [r s']. intros [= -> <-]. auto. Qed.
Lemma seen_ok {S A} (m : st obs A) (s : S) ob a y : seen m (s, ob) = (Ok a, y) -> m ob = (Ok a, snd y) /\ fst y = s.
Proof. unfold seen. cbn [fst snd]. destruct (m ob) as [r ob']. intros [= -> <-]. auto. Qed.
Lemma lift_ok {S A} (r : res A) (s : S) a s' : lift r s = (Ok a, s') -> r = Ok a /\ s' = s.
Proof. intros [= -> <-]. auto. Qed.

Variable v : tenv P.
Hypothesis Hv : te_opt v = o.
Notation n := (zlen (te_meta v)).

(* the records of the chunks lo, ..., hi-1 and the manifests ps *)
Definition about (lo hi : Z) (ps : list packet) (es : list (hashv * gentry)) : Prop :=
  (forall x, In x es -> (exists i, lo <= i < hi /\ x = rec_data (chunk_meta P v i)) \/ exists p, In p ps /\ rec_man p x) /\
  (forall i, lo <= i < hi -> In (rec_data (chunk_meta P v i)) es) /\
  (forall p, In p ps -> exists x, In x es /\ rec_man p x).
Lemma about_nil a : about a a [] [].
Proof. split; [intros ? []|]. split; [intros; lia|intros ? []]. Qed.
Lemma about_app a b c ps qs es es2 : a <= b <= c -> about b c ps es -> about a b qs es2 -> about a c (ps ++ qs) (es ++ es2).
Proof.
  intros Hab (A1 & B1 & C1) (A2 & B2 & C2). split; [|split].
  - intros x I. apply in_app_iff in I as [I|I].
    + destruct (A1 x I) as [(i & Hi & E)|(p & Ip & R)]; [left; exists i; split; [lia|exact E]|right; exists p; split; [apply in_app_iff; auto|exact R]].
    + destruct (A2 x I) as [(i & Hi & E)|(p & Ip & R)]; [left; exists i; split; [lia|exact E]|right; exists p; split; [apply in_app_iff; auto|exact R]].
  - intros i Hi. apply in_app_iff. destruct (Z.lt_ge_cases i b); [right; apply B2; lia|left; apply B1; lia].
  - intros p I. apply in_app_iff in I as [I|I]; [destruct (C1 p I) as (x & Ix & R)|destruct (C2 p I) as (x & Ix & R)]; exists x; (split; [apply in_app_iff; auto|exact R]).
Qed.
Lemma about_man a p x y : rec_man p x -> rec_man p y -> about a a [p] ([x] ++ [y]).
Proof.
  intros R R'. split; [|split].
  - intros z [<-|[<-|[]]]; right; exists p; (split; [now left|assumption]).
  - intros; lia.
  - intros q [<-|[]]. exists x. split; [now left|exact R].
Qed.
Lemma meta_at_inv i c : 0 <= i -> meta_at P v i = Ok c -> c = chunk_meta P v i /\ i < n.
Proof.
  intros Hi. unfold meta_at, chunk_meta. destruct (nth_error (te_meta v) (Z.to_nat i)) as [c'|] eqn:E; [|discriminate]. intros [= <-]. split; [symmetry; now apply nth_error_nth|].
  assert (Z.to_nat i < length (te_meta v))%nat by (apply nth_error_Some; congruence). unfold zlen. lia.
Qed.
(* hashes of chunks and of packets that were written after the first base *)
Variable base : nat.
Definition known (out : list packet) (h : hashv) : Prop :=
  (exists i, 0 <= i < n /\ h = cm_hash (chunk_meta P v i)) \/ stored P (skipn base out) h.
Definition kids_known (out : list packet) (es : list (hashv * gentry)) : Prop :=
  forall z k, In z es -> In k (ge_kids (snd z)) -> known out k.
Lemma known_app out ps h : known out h -> known (out ++ ps) h.
Proof. intros [H|(q & I & H)]; [now left|]. right. exists q. split; [rewrite skipn_app; apply in_app_iff; auto|exact H]. Qed.
Lemma kids_app out ps es es2 : kids_known out es -> kids_known (out ++ ps) es2 -> kids_known (out ++ ps) (es ++ es2).
Proof. intros A B z k I Ik. apply in_app_iff in I as [I|I]; [apply known_app; eauto|eauto]. Qed.
Lemma kids_about lo hi es : about lo hi [] es -> forall out, kids_known out es.
Proof. intros (A & _) out z k I Ik. destruct (A z I) as [(i & _ & ->)|(p & [] & _)]. destruct Ik. Qed.

(* from s to s' the builder wrote ps, counted them and recorded them together
   with the chunks it took *)
Definition grows (s : bst) (ob : obs) (s' : bst) (ob' : obs) : Prop :=
  exists ps, b_out s' = b_out s ++ ps /\ b_head s' = b_head s /\ b_tail s' <= b_tail s /\
    counted ob ob' ps /\ drawn ob ob' (fun es => about (b_tail s') (b_tail s) ps es /\ kids_known (b_out s') es) /\ Forall (fun p => exists nd, holds_node o p nd) ps.
Lemma grows_refl s ob : grows s ob s ob.
Proof.
  exists []. split; [now rewrite app_nil_r|]. split; [reflexivity|]. split; [lia|]. split; [now apply counted_nil|]. split; [|constructor]. apply drawn_same; [split; [apply about_nil|intros ? ? []]|reflexivity].
Qed.
Lemma grows_trans s ob s1 ob1 s2 ob2 : grows s ob s1 ob1 -> grows s1 ob1 s2 ob2 -> grows s ob s2 ob2.
Proof.
  intros (ps & A & B & C & D & E & F) (qs & A' & B' & C' & D' & E' & F'). exists (ps ++ qs). split; [now rewrite A', A, app_assoc|]. split; [congruence|]. split; [lia|].
  split; [eapply counted_trans; eassumption|]. split; [|apply Forall_app; auto]. eapply drawn_trans; [|exact E|exact E']. intros es es2 (Q1 & Q2) (Q3 & Q4). split; [eapply about_app; [|exact Q1|exact Q3]; lia|]. rewrite A' in *. now apply kids_app.
Qed.
Lemma grows_known s ob s' ob' h : grows s ob s' ob' -> known (b_out s) h -> known (b_out s') h.
Proof. intros (ps & -> & _). apply known_app. Qed.
Definition inside (s : bst) : Prop := 0 <= b_head s /\ (base <= length (b_out s))%nat.
Lemma grows_inside s ob s' ob' : grows s ob s' ob' -> inside s -> inside s'.
Proof. intros (ps & E & H & _). unfold inside. rewrite H, E, app_length. lia. Qed.

(* the same place of the builder *)
Definition stays (s s' : bst) : Prop := b_out s' = b_out s /\ b_head s' = b_head s /\ b_tail s' = b_tail s.

Lemma x_packet_trace gs ds is level s ob np s' ob' : x_packet P rnd now orep v gs ds is level (s, ob) = (Ok np, (s', ob')) ->
  stays s s' /\ holds_node o (snd np) (fst np) /\ n_groups (fst np) = gs /\ counted ob ob' [snd np] /\
  drawn ob ob' (fun es => exists x, rec_man (snd np) x /\ ge_kids (snd x) = node_ptrs (fst np) /\ es = [x]).
Proof.
  unfold x_packet. cbv zeta. intros H. apply sbind_ok in H as (t & y & H1 & H). apply lift_ok in H1 as (_ & ->).
  apply sbind_ok in H as (nm & [s1 ob1] & H1 & H). apply plain_ok in H1 as (H1 & E). cbn [fst snd] in H1, E. subst ob1.
  apply sbind_ok in H as (p & [s2 ob2] & H2 & H). apply plain_ok in H2 as (H2 & E). cbn [fst snd] in H2, E. subst ob2.
  apply sbind_ok in H as ([] & [s3 ob3] & H3 & H). apply seen_ok in H3 as (H3 & E). cbn [fst snd] in H3, E. subst s3.
  injection H as <- <- <-. cbn [fst snd].
  apply run_fac_ok in H2 as (k & H2 & ->).
  assert (holds_node o p (mkNode (if op_nsize (te_opt v) then Some (mkND (Some (ds + is)) None None [] []) else None) gs None)) as Hn.
  { eapply carries_holds; [exact Hv|]. eapply fac_node_carries. now rewrite H2. }
  split.
  - unfold next_name in H1. cbv zeta in H1. apply sbind_ok in H1 as (? & ? & I & H1). apply lift_ok in I as (_ & ->). apply sbind_ok in H1 as (? & ? & I & H1). injection I as <- <-.
    apply sbind_ok in H1 as ([id ids] & ? & I & H1). apply lift_ok in I as (_ & ->). apply sbind_ok in H1 as (? & ? & I & H1). apply lift_ok in I as (_ & ->).
    apply sbind_ok in H1 as (? & ? & I & H1). injection I as _ <-. apply lift_ok in H1 as (_ & ->). repeat split.
  - split; [exact Hn|]. split; [reflexivity|]. eapply packet_trace; eassumption.
Qed.
(* the end of a leaf and of an interior manifest *)
Lemma see_wrote_trace np s1 ob1 ob2 : holds_node o (snd np) (fst np) ->
  counted ob1 ob2 [snd np] -> drawn ob1 ob2 (fun es => exists x, rec_man (snd np) x /\ ge_kids (snd x) = node_ptrs (fst np) /\ es = [x]) ->
  forall s2 ob3, stays s1 s2 -> (forall h, In h (node_ptrs (fst np)) -> known (b_out s1) h) -> see_manifest P orep (fst np) (snd np) ob2 = (Ok tt, ob3) -> grows s1 ob1 (wrote (snd np) s2) ob3.
Proof.
  intros Hn C D s2 ob3 (A1 & A2 & A3) K H. apply man_trace in H as (C' & D'); [|exact Hn]. exists [snd np]. cbn [wrote b_out b_head b_tail].
  split; [now rewrite A1|]. split; [exact A2|]. split; [lia|]. split.
  - change [snd np] with ([snd np] ++ []). eapply counted_trans; eassumption.
  - split; [|repeat constructor; eauto]. rewrite A3. eapply drawn_trans; [|exact D|exact D']. intros es es2 (x & R & Ex & ->) (y & R' & Ey & ->). split; [now apply about_man|].
    rewrite A1. intros z k [<-|[<-|[]]] Ik; [rewrite Ex in Ik|rewrite Ey in Ik]; apply known_app; auto.
Qed.
Lemma seg_check_ok s a s' : seg_check s = (Ok a, s') -> s' = s /\ 0 <= b_tail s /\ 0 <= b_head s /\ b_head s <= b_tail s.
Proof.
  unfold seg_check. intros H. apply sbind_ok in H as (? & ? & I & H). injection I as <- <-. apply lift_ok in H as (H & ->). apply guard_ok in H. split; [reflexivity|lia].
Qed.
Lemma decrement_tail_ok c s a s' : decrement_tail c s = (Ok a, s') -> s' = set_tail (b_tail s - c) s /\ 0 <= c /\ b_head s <= b_tail s - c.
Proof.
  unfold decrement_tail. intros H. apply sbind_ok in H as (? & ? & I & H). apply lift_ok in I as (G & ->). apply guard_ok in G.
  apply sbind_ok in H as (? & ? & I & H). injection I as <- <-. apply sbind_ok in H as (? & ? & I & H). injection I as _ <-. apply seg_check_ok in H as (-> & _ & _ & H).
  split; [reflexivity|]. cbn in H. lia.
Qed.
Lemma increment_head_ok c s a s' : increment_head c s = (Ok a, s') -> s' = set_head (b_head s + c) s /\ 0 <= c /\ b_head s + c <= b_tail s.
Proof.
  unfold increment_head. intros H. apply sbind_ok in H as (? & ? & I & H). apply lift_ok in I as (G & ->). apply guard_ok in G.
  apply sbind_ok in H as (? & ? & I & H). injection I as <- <-. apply sbind_ok in H as (? & ? & I & H). injection I as _ <-. apply seg_check_ok in H as (-> & _ & _ & H).
  split; [reflexivity|]. cbn in H. lia.
Qed.
Lemma decrement_head_ok c s a s' : decrement_head c s = (Ok a, s') -> s' = set_head (b_head s - c) s.
Proof.
  unfold decrement_head. intros H. apply sbind_ok in H as (? & ? & I & H). apply lift_ok in I as (G & ->). apply guard_ok in G.
  apply sbind_ok in H as (? & ? & I & H). injection I as <- <-. apply sbind_ok in H as (? & ? & I & H). injection I as _ <-. now apply seg_check_ok in H as (-> & _).
Qed.

Lemma wrote_in (out : list packet) p : (base <= length out)%nat -> In p (skipn base (out ++ [p])).
Proof. intros H. rewrite skipn_app. apply in_app_iff. right. replace (base - length out)%nat with 0%nat by lia. now left. Qed.
Lemma x_leaf_loop_trace k : forall a b s ob b' y, 0 <= a ->
  x_leaf_loop P orep v b (zrange a (a + Z.of_nat k)) (s, ob) = (Ok b', y) ->
  fst y = s /\ counted ob (snd y) [] /\ drawn ob (snd y) (about a (a + Z.of_nat k) []) /\
  forall h, In h (hb_ptrs b') -> In h (hb_ptrs b) \/ forall out, known out h.
Proof.
  induction k as [|k IH]; intros a b s ob b' y Ha.
  - replace (a + Z.of_nat 0) with a by lia. rewrite zrange_nil by lia. cbn [x_leaf_loop]. intros [= <- <-]. cbn [fst snd]. split; [reflexivity|].
    split; [now apply counted_nil|]. split; [|auto]. apply drawn_same; [apply about_nil|reflexivity].
  - rewrite zrange_cons by lia. cbn [x_leaf_loop]. intros H. apply sbind_ok in H as (c & y1 & H1 & H). apply lift_ok in H1 as (H1 & ->).
    apply meta_at_inv in H1 as (H1 & Hn); [|exact Ha]. apply sbind_ok in H as ([] & [s2 ob2] & H2 & H). apply seen_ok in H2 as (H2 & E). cbn [fst snd] in H2, E. subst s2.
    apply data_trace in H2 as (C & D). apply sbind_ok in H as (b2 & y3 & H3 & H). apply lift_ok in H3 as (H3 & ->).
    replace (a + Z.of_nat (S k)) with (a + 1 + Z.of_nat k) in * by lia. apply IH in H as (E & C' & D' & Kn); [|lia]. split; [exact E|].
    split; [change (@nil packet) with (@nil packet ++ []); eapply counted_trans; eassumption|].
    split.
    2:{ intros h I. apply Kn in I as [I|I]; [|auto]. unfold hb_append_direct in H3. apply bind_ok in H3 as (? & _ & H3). apply Ok_inj in H3. subst b2. cbn [hb_ptrs] in I.
        apply in_app_iff in I as [I|[<-|[]]]; [auto|]. right. intros out. left. exists a. split; [lia|congruence]. }
    eapply drawn_trans; [|exact D|exact D']. intros es es2 -> (A & B & _). rewrite H1. split; [|split].
    + intros x [<-|I]; [left; exists a; split; [lia|reflexivity]|]. destruct (A x I) as [(i & Hi & Ei)|(p & [] & _)]. left. exists i. split; [lia|exact Ei].
    + intros i Hi. destruct (Z.eq_dec i a) as [->|]; [now left|]. right. apply B. lia.
    + intros p [].
Qed.
Lemma x_leaf_trace level s ob np s' ob' : inside s -> x_leaf P rnd now orep v level (s, ob) = (Ok np, (s', ob')) -> grows s ob s' ob' /\ In (snd np) (skipn base (b_out s')).
Proof.
  intros Hs. unfold x_leaf. intros H. apply sbind_ok in H as (s0 & y & H0 & H). apply plain_ok in H0 as (H0 & E). injection H0 as <- E0.
  destruct y as [s1 ob1]. cbn [fst snd] in E0, E. subst s1 ob1. cbv zeta in H. set (a := Z.max (b_head s) (b_tail s - te_p v)) in *.
  apply sbind_ok in H as (np' & [s1 ob1] & H1 & H). unfold x_leaf_packet in H1.
  apply sbind_ok in H1 as (? & y & G & H1). apply lift_ok in G as (G & ->). apply guard_ok in G.
  apply sbind_ok in H1 as (b & [s2 ob2] & L & H1). replace (b_tail s) with (a + Z.of_nat (Z.to_nat (b_tail s - a))) in L at 2 by lia.
  apply x_leaf_loop_trace in L as (E & C & D & Kn); [|unfold inside in Hs; lia]. cbn [fst snd] in E, C, D. subst s2.
  replace (a + Z.of_nat (Z.to_nat (b_tail s - a))) with (b_tail s) in D by lia.
  apply sbind_ok in H1 as (sid & y & I & H1). apply lift_ok in I as (_ & ->). apply sbind_ok in H1 as (g & y & I & H1). apply lift_ok in I as (Eg & ->). apply hb_group_ptrs in Eg.
  apply sbind_ok in H1 as (? & [s3 ob3] & I & H1). apply plain_ok in I as (I & E). cbn [fst snd] in I, E. injection I as _ <-. subst ob3.
  apply x_packet_trace in H1 as ((A1 & A2 & A3) & Hn & Hg & C1 & D1).
  apply sbind_ok in H as (? & [s4 ob4] & I & H). apply plain_ok in I as (I & E). cbn [fst snd] in I, E. subst ob4. apply decrement_tail_ok in I as (-> & _ & _).
  apply sbind_ok in H as ([] & [s5 ob5] & I & H). apply seen_ok in I as (I & E). cbn [fst snd] in I, E. subst s5.
  apply sbind_ok in H as (? & [s6 ob6] & J & H). apply plain_ok in J as (J & E). cbn [fst snd] in J, E. injection J as _ <-. subst ob6. injection H as <- <- <-.
  split; [|cbn [wrote b_out]; apply wrote_in; cbn [set_tail b_out]; rewrite A1; apply Hs].
  apply grows_trans with (s1 := set_tail a s) (ob1 := ob2).
  - exists []. rewrite app_nil_r. split; [reflexivity|]. split; [reflexivity|]. cbn [set_tail b_tail]. split; [lia|]. split; [exact C|]. split; [|constructor].
    unfold drawn in *. destruct (ob_graph ob) as [g0|]; [|exact D]. destruct (gr_paused g0); [exact D|]. destruct D as (es & g' & Q & D). exists es, g'. split; [|exact D]. split; [exact Q|]. eapply kids_about. exact Q.
  - eapply see_wrote_trace; [exact Hn|exact C1|exact D1| | |exact I]; [split; [|split]; cbn [set_tail b_out b_head b_tail inc_leafs] in *; [exact A1|exact A2|lia]|].
    intros h Ih. unfold node_ptrs in Ih. rewrite Hg in Ih. cbn [flat_map] in Ih. rewrite Eg, app_nil_r in Ih. apply Kn in Ih as [[]|Ih]. apply Ih.
Qed.
Definition goes {A} (m : st (bst * obs) A) (R : bst -> A -> Prop) (s : bst) : Prop :=
  forall ob a s' ob', inside s -> m (s, ob) = (Ok a, (s', ob')) -> grows s ob s' ob' /\ R s' a.
(* the pointers that were collected *)
Definition pr_ptrs (b : pair) : list hashv := match b with One b => hb_ptrs b | Two d i => hb_ptrs d ++ hb_ptrs i end.
Definition all_known (s : bst) (b : pair) : Prop := forall h, In h (pr_ptrs b) -> known (b_out s) h.
Definition its_packet (s : bst) (np : node * packet) : Prop := In (snd np) (skipn base (b_out s)).
Lemma all_known_grows s ob s' ob' b : grows s ob s' ob' -> all_known s b -> all_known s' b.
Proof. intros G K h I. eapply grows_known; [exact G|auto]. Qed.
Definition one_more (f : hgb -> res hgb) (k : hashv) : Prop := forall b b', f b = Ok b' -> forall h, In h (hb_ptrs b') -> h = k \/ In h (hb_ptrs b).
Lemma on_direct_ptrs f k b b' : one_more f k -> pr_on_direct f b = Ok b' -> forall h, In h (pr_ptrs b') -> h = k \/ In h (pr_ptrs b).
Proof.
  intros Hf H h I. destruct b as [b|d i]; cbn [pr_on_direct] in H; apply bind_ok in H as (c & E & H); apply Ok_inj in H; subst b'; cbn [pr_ptrs] in *; [eapply Hf; eassumption|].
  apply in_app_iff in I as [I|I]; [|rewrite in_app_iff; auto]. destruct (Hf _ _ E _ I) as [J|J]; [auto|rewrite in_app_iff; auto].
Qed.
Lemma on_indirect_ptrs f k b b' : one_more f k -> pr_on_indirect f b = Ok b' -> forall h, In h (pr_ptrs b') -> h = k \/ In h (pr_ptrs b).
Proof.
  intros Hf H h I. destruct b as [b|d i]; cbn [pr_on_indirect] in H; apply bind_ok in H as (c & E & H); apply Ok_inj in H; subst b'; cbn [pr_ptrs] in *; [eapply Hf; eassumption|].
  apply in_app_iff in I as [I|I]; [rewrite in_app_iff; auto|]. destruct (Hf _ _ E _ I) as [J|J]; [auto|rewrite in_app_iff; auto].
Qed.
Lemma append_more k z : one_more (fun b => hb_append_indirect b k z) k.
Proof.
  intros b b' H h I. unfold hb_append_indirect in H. apply bind_ok in H as (? & _ & H). apply Ok_inj in H. subst b'. cbn [hb_ptrs] in I.
  apply in_app_iff in I as [I|[<-|[]]]; auto.
Qed.
Lemma prepend_more k z : one_more (fun b => hb_prepend_indirect b k z) k.
Proof.
  intros b b' H h I. unfold hb_prepend_indirect in H. apply bind_ok in H as (? & _ & H). apply Ok_inj in H. subst b'. destruct I as [<-|I]; auto.
Qed.
Lemma prepend_direct_more k z : one_more (fun b => hb_prepend_direct b k z) k.
Proof.
  intros b b' H h I. unfold hb_prepend_direct in H. apply bind_ok in H as (? & _ & H). apply Ok_inj in H. subst b'. destruct I as [<-|I]; auto.
Qed.
Lemma add_child_known f np b b' s : (forall k z, one_more (fun b => f b k z) k) -> its_packet s np -> all_known s b -> add_child P v f np b = Ok b' -> all_known s b'.
Proof.
  intros Hf Hp K H h I. unfold add_child in H. apply bind_ok in H as (k & Ek & H). apply bind_ok in H as (z & _ & H).
  destruct (on_indirect_ptrs _ k _ _ (Hf k z) H h I) as [->|J]; [|auto]. right. exists (snd np). auto.
Qed.
Lemma x_indirect_loop_trace child : (forall s, goes child its_packet s) -> forall fuel b s, all_known s b -> goes (x_indirect_loop P fuel v child b) all_known s.
Proof.
  intros Hc. induction fuel as [|f IH]; intros b s K ob a s' ob' Hs; cbn [x_indirect_loop]; intros H; apply sbind_ok in H as (s0 & [s1 ob1] & H0 & H);
    apply plain_ok in H0 as (H0 & E); cbn [fst snd] in H0, E; injection H0 as <- <-; subst ob1; (destruct (_ && _); [|injection H as <- <- <-; split; [apply grows_refl|exact K]]).
  - discriminate.
  - apply sbind_ok in H as (np & [s2 ob2] & H1 & H). apply Hc in H1 as (G & Hp); [|exact Hs]. apply sbind_ok in H as (b' & y & H2 & H). apply lift_ok in H2 as (H2 & ->).
    assert (K' : all_known s2 b') by (eapply add_child_known; [exact prepend_more|exact Hp|eapply all_known_grows; eassumption|exact H2]).
    apply IH in H as (G' & R); [|exact K'|eapply grows_inside; eassumption]. split; [eapply grows_trans; eassumption|exact R].
Qed.
Lemma x_add_indirect_trace child b s : (forall s, goes child its_packet s) -> all_known s b -> goes (x_add_indirect P v child b) all_known s.
Proof.
  intros Hc K ob a s' ob' Hs H. unfold x_add_indirect in H. apply sbind_ok in H as (s0 & [s1 ob1] & H0 & H). apply plain_ok in H0 as (H0 & E). cbn [fst snd] in H0, E. injection H0 as <- <-. subst ob1.
  cbv zeta in H. apply sbind_ok in H as (? & [s1 ob1] & H0 & H). apply plain_ok in H0 as (H0 & E). cbn [fst snd] in H0, E. subst ob1. apply increment_head_ok in H0 as (-> & Hr & _).
  apply sbind_ok in H as (s0 & [s1 ob1] & H0 & H). apply plain_ok in H0 as (H0 & E). cbn [fst snd] in H0, E. injection H0 as <- <-. subst ob1.
  apply sbind_ok in H as (b' & [s2 ob2] & H1 & H). apply x_indirect_loop_trace in H1 as (H1 & K'); [|exact Hc|exact K|unfold inside in *; cbn; lia].
  apply sbind_ok in H as (? & [s3 ob3] & H0 & H). apply plain_ok in H0 as (H0 & E). cbn [fst snd] in H0, E. subst ob3. apply decrement_head_ok in H0 as ->. injection H as <- <- <-.
  split; [|exact K']. destruct H1 as (ps & A & B & C & D & E). exists ps. cbn [set_head b_out b_head b_tail] in *. split; [exact A|]. split; [lia|]. split; [exact C|]. split; [exact D|exact E].
Qed.
Lemma x_direct_loop_trace : forall fuel b least s, all_known s b -> goes (x_direct_loop P orep fuel v b least) (fun s r => all_known s (fst r)) s.
Proof.
  induction fuel as [|f IH]; intros b least s K ob a s' ob' Hs; cbn [x_direct_loop]; intros H; apply sbind_ok in H as (s0 & [s1 ob1] & H0 & H);
    apply plain_ok in H0 as (H0 & E); cbn [fst snd] in H0, E; injection H0 as <- <-; subst ob1; (destruct (_ && _) eqn:Q; [|injection H as <- <- <-; split; [apply grows_refl|exact K]]).
  - discriminate.
  - apply sbind_ok in H as (c & y & H1 & H). apply lift_ok in H1 as (H1 & ->). apply sbind_ok in H as ([] & [s2 ob2] & H2 & H). apply seen_ok in H2 as (H2 & E). cbn [fst snd] in H2, E. subst s2.
    apply data_trace in H2 as (C & D). apply sbind_ok in H as (b' & y & H3 & H). apply lift_ok in H3 as (Hb & ->).
    apply sbind_ok in H as (? & [s3 ob3] & H3 & H). apply plain_ok in H3 as (H3 & E). cbn [fst snd] in H3, E. subst ob3. apply decrement_tail_ok in H3 as (-> & _ & Ht).
    unfold inside in Hs. apply meta_at_inv in H1 as (H1 & Hn); [|lia].
    apply IH in H as (G & R); [| |exact Hs].
    2:{ intros h I. change (b_out (set_tail (b_tail s - 1) s)) with (b_out s). destruct (on_direct_ptrs _ _ _ _ (prepend_direct_more _ _) Hb h I) as [->|J]; [|auto].
        left. exists (b_tail s - 1). split; [lia|congruence]. }
    split; [|exact R]. eapply grows_trans; [|exact G].
    exists []. cbn [set_tail b_out b_head b_tail]. rewrite app_nil_r. split; [reflexivity|]. split; [reflexivity|]. split; [lia|]. split; [exact C|]. split; [|constructor].
    unfold drawn in *. destruct (ob_graph ob) as [g|]; [|exact D]. destruct (gr_paused g); [exact D|]. destruct D as (es & g' & -> & D). exists [rec_data c], g'. split; [|exact D]. subst c.
    split; [split; [|split]|].
    + intros z [<-|[]]. left. exists (b_tail s - 1). split; [lia|reflexivity].
    + intros i Hi. left. f_equal. f_equal. lia.
    + intros p [].
    + intros z k [<-|[]] [].
Qed.
Lemma pr_groups_known x b l u ds is gs s nd : pr_groups x b l u ds is = Ok gs -> all_known s b -> n_groups nd = gs ->
  forall h, In h (node_ptrs nd) -> known (b_out s) h.
Proof.
  intros H K E h I. apply K. unfold node_ptrs in I. rewrite E in I. destruct b as [b|d i]; cbn [pr_groups pr_ptrs] in *.
  - apply bind_ok in H as (? & _ & H). apply bind_ok in H as (? & _ & H). apply bind_ok in H as (g & Hg & H). apply Ok_inj in H. subst gs.
    cbn [flat_map] in I. rewrite (hb_group_ptrs _ _ _ _ _ _ Hg), app_nil_r in I. exact I.
  - apply bind_ok in H as (g & Hg & H). apply bind_ok in H as (g' & Hg' & H). apply Ok_inj in H. subst gs.
    cbn [flat_map] in I. rewrite (hb_group_ptrs _ _ _ _ _ _ Hg), (hb_group_ptrs _ _ _ _ _ _ Hg'), app_nil_r in I. exact I.
Qed.
Lemma x_interior_trace child level right s : (forall s, goes child its_packet s) -> (forall np, right = Some np -> its_packet s np) ->
  goes (x_interior P rnd now orep v child level right) its_packet s.
Proof.
  intros Hc Hr ob a s' ob' Hs H. unfold x_interior in H. cbv zeta in H. apply sbind_ok in H as (b & y & H0 & H). apply lift_ok in H0 as (H0 & ->).
  assert (N : all_known s (pr_new (nx_two (te_ctx v)) (te_d v) (te_m v))) by (intros h I; unfold pr_new in I; destruct (nx_two _); destruct I).
  assert (K : all_known s b).
  { destruct right as [np|]; [|apply Ok_inj in H0; now subst b]. eapply add_child_known; [exact append_more|now apply Hr|exact N|exact H0]. }
  apply sbind_ok in H as (b1 & [s1 ob1] & H1 & H). apply x_add_indirect_trace in H1 as (H1 & K1); [|exact Hc|exact K|exact Hs]. pose proof (grows_inside _ _ _ _ H1 Hs) as Hs1.
  apply sbind_ok in H as ([b2 ds] & [s2 ob2] & H2 & H). unfold x_add_direct in H2. apply sbind_ok in H2 as (s0 & [s1' ob1'] & I0 & H2). apply plain_ok in I0 as (I0 & E). cbn [fst snd] in I0, E. injection I0 as <- <-. subst ob1'.
  apply x_direct_loop_trace in H2 as (H2 & K2); [|exact K1|exact Hs1]. cbn [fst] in K2.
  apply sbind_ok in H as (np & [s3 ob3] & H3 & H). unfold x_interior_packet in H3. apply sbind_ok in H3 as (s0 & [s4 ob4] & I0 & H3). apply plain_ok in I0 as (I0 & E). cbn [fst snd] in I0, E. injection I0 as <- <-. subst ob4.
  apply sbind_ok in H3 as (is & y & I0 & H3). apply lift_ok in I0 as (_ & ->). cbv zeta in H3. apply sbind_ok in H3 as (gs & y & I0 & H3). apply lift_ok in I0 as (Eg & ->).
  apply x_packet_trace in H3 as (A & Hn & Hg & C1 & D1).
  apply sbind_ok in H as ([] & [s5 ob5] & I & H). apply seen_ok in I as (I & E). cbn [fst snd] in I, E. subst s5.
  apply sbind_ok in H as (? & [s6 ob6] & J & H). apply plain_ok in J as (J & E). cbn [fst snd] in J, E. injection J as _ <-. subst ob6.
  apply sbind_ok in H as (? & [s6 ob6] & J & H). apply plain_ok in J as (J & E). cbn [fst snd] in J, E. injection J as _ <-. subst ob6. injection H as <- <- <-.
  split; [|unfold its_packet; cbn [inc_ints wrote b_out]; apply wrote_in; rewrite (proj1 A); apply (grows_inside _ _ _ _ H2 Hs1)].
  eapply grows_trans; [exact H1|]. eapply grows_trans; [exact H2|].
  assert (G : grows s2 ob2 (wrote (snd np) s3) ob5); [|exact G].
  eapply see_wrote_trace; [exact Hn|exact C1|exact D1|exact A| |exact I]. eapply pr_groups_known; [exact Eg|exact K2|exact Hg].
Qed.
Lemma x_bottom_up_trace level : forall right s, (forall np, right = Some np -> its_packet s np) -> goes (x_bottom_up P rnd now orep v level right) its_packet s.
Proof.
  induction level as [|l IH]; intros right s Hr ob a s' ob' Hs; cbn [x_bottom_up]; intros H.
  - apply sbind_ok in H as (? & y & H0 & H). apply lift_ok in H0 as (_ & ->). eapply x_leaf_trace; eassumption.
  - apply sbind_ok in H as (s0 & [s1 ob1] & H0 & H). apply plain_ok in H0 as (H0 & E). cbn [fst snd] in H0, E. injection H0 as <- <-. subst ob1.
    destruct (_ && _); [eapply x_leaf_trace; eassumption|]. eapply x_interior_trace; [|exact Hr|exact Hs|exact H]. intros s2. apply IH. discriminate.
Qed.
Lemma x_build_loop_trace fuel : forall level root s ob a s' ob', inside s -> its_packet s root ->
  x_build_loop P rnd now orep fuel v level root (s, ob) = (Ok a, (s', ob')) -> grows s ob s' ob' /\ b_tail s' = b_head s' /\ its_packet s' a.
Proof.
  induction fuel as [|f IH]; intros level root s ob a s' ob' Hs Hr; cbn [x_build_loop]; intros H; apply sbind_ok in H as (s0 & [s1 ob1] & H0 & H);
    apply plain_ok in H0 as (H0 & E); cbn [fst snd] in H0, E; injection H0 as <- <-; subst ob1; (destruct (seg_empty s) eqn:Q; [injection H as <- <- <-; split; [apply grows_refl|unfold seg_empty in Q; split; [lia|exact Hr]]|]).
  - discriminate.
  - apply sbind_ok in H as (r & [s1 ob1] & H1 & H). apply x_bottom_up_trace in H1 as (H1 & Hr1); [|intros np [= <-]; exact Hr|exact Hs].
    apply IH in H as (G & T & Ha); [|eapply grows_inside; eassumption|exact Hr1]. split; [eapply grows_trans; eassumption|auto].
Qed.
Lemma x_build_trace s ob a s' ob' : b_head s = 0 -> (base <= length (b_out s))%nat -> x_build P rnd now orep v (s, ob) = (Ok a, (s', ob')) ->
  exists ps, b_out s' = b_out s ++ ps /\ counted ob ob' ps /\
    drawn ob ob' (fun es => about 0 (b_tail s) ps es /\ kids_known (b_out s') es) /\ Forall (fun p => exists nd, holds_node o p nd) ps /\
    In (snd a) (skipn base (b_out s')).
Proof.
  intros Hh Hl. unfold x_build. intros H. apply sbind_ok in H as (? & [s1 ob1] & H0 & H). apply plain_ok in H0 as (H0 & E). cbn [fst snd] in H0, E. subst ob1. apply seg_check_ok in H0 as (-> & _).
  apply sbind_ok in H as (r & [s1 ob1] & H1 & H). apply x_leaf_trace in H1 as (H1 & Hr); [|unfold inside; lia].
  apply sbind_ok in H as (s0 & [s2 ob2] & H0 & H). apply plain_ok in H0 as (H0 & E). cbn [fst snd] in H0, E. injection H0 as <- <-. subst ob2.
  apply x_build_loop_trace in H as (G & T & Ha); [|eapply grows_inside; [exact H1|unfold inside; lia]|exact Hr].
  destruct (grows_trans _ _ _ _ _ _ H1 G) as (ps & A & B & _ & C & D & F). exists ps. split; [exact A|]. split; [exact C|]. replace (b_tail s') with 0 in D by lia. split; [exact D|]. split; [exact F|exact Ha].
Qed.
End Trace.

(* ---------------- the whole build ---------------- *)

Section Whole.
Context {P : prims}.
Variable o : opts P.
Variable clog : Z -> Z -> Z -> Z.
Variable rnd : nat -> bytes.
Variable now : fl.
Variable orep : comp -> text.

(* the names of the manifests can be written as labels *)
Definition names_labelable (nc : Z) : Prop :=
  labelable orep (op_name o) /\
  forall x id nm, nctx_create P o nc = Ok x -> impl_name (nx_man x) (Some id) = Ok nm -> labelable orep nm.

Lemma sim_on_nonce L {A} (m : st nat A) xm s : (forall k, sim L m xm k) -> sim L (on_nonce m) (x_on_nonce xm) s.
Proof.
  intros H ob. unfold on_nonce, x_on_nonce. cbn [fst snd]. destruct (H (ms_nonce s) ob) as [(ob' & E & K)|(G & N & e & [k y] & E)]; rewrite E.
  - left. exists ob'. destruct (m (ms_nonce s)). split; [reflexivity|exact K].
  - right. eauto.
Qed.
Lemma root_facts x total top k p k' : root_packet P rnd now o x total top k = (Ok p, k') ->
  exists h l hp, packet_hash (pr_sha P) top = Ok h /\ holds_node o p (root_node o x total h) /\
    body_name p = op_name o /\ packet_len p = Ok l /\ packet_hash (pr_sha P) p = Ok hp.
Proof.
  intros H. pose proof H as H'. apply root_inv in H as (h & m & w & Hh & Hm & Hw & _ & _ & Hb & hp & Hhp).
  unfold root_packet in H'. apply sbind_ok in H' as (h' & k1 & H1 & H'). apply fac_packet_facts in H' as (N & _ & l & Hl).
  exists h, l, hp. split; [exact Hh|]. split; [|auto]. eexists _, m, w. split; [exact Hb|]. do 2 (split; [reflexivity|]). split; [exact Hw|].
  unfold root_manifest in Hm. unfold manifest_of_node. destruct (op_enc o); eauto.
Qed.
Lemma groups_root x total h : groups_node [mkHG (Some (mkGD (keep (op_gsize o) (Some total)) None None None (Some (im_nc (nx_man x)))
                              (if uses_name_id (nx_man x) then Some 0 else None))) (Some [h])]
                           (Some (nctx_defs x)) (keep (op_nsize o) (Some total)) = root_node o x total h.
Proof. unfold groups_node, root_node. rewrite orb_true_r. reflexivity. Qed.
Lemma sim_tree nc data s : sim (names_labelable nc) (manifest_tree P clog rnd now o nc data) (x_manifest_tree P clog rnd now orep o nc data) s.
Proof.
  unfold manifest_tree, x_manifest_tree. apply sim_bind; [apply sim_lift|]. intros x s1 Ex. apply lift_ok in Ex as (Ex & _).
  apply sim_bind; [apply sim_plain|]. intros [[meta total] nx] s2 _. apply sim_bind; [apply sim_on_nonce; intros k; apply sim_optimal|]. intros r s3 _.
  apply sim_bind; [apply sim_build_top; intros (_ & HL) id nm E; eapply HL; [exact Ex|exact E]|]. intros top s4 _.
  unfold build_root, x_build_root. apply sim_bind; [|intros p s5 _; apply sim_bind; [apply sim_plain|]; intros _ s6 _; apply sim_ret].
  apply sim_on_nonce. intros k ob. unfold x_root_packet. unfold sbind at 1, lift. destruct (packet_hash (pr_sha P) top) as [h|e] eqn:Eh.
  2:{ left. exists ob. unfold root_packet, sbind, lift. rewrite Eh. split; [reflexivity|apply kind_refl]. }
  eapply (sim_after (names_labelable nc) (root_packet P rnd now o x total top) (plain (root_packet P rnd now o x total top))); [apply sim_plain|].
  intros p k' F. apply root_facts in F as (h' & l & hp & Eh' & Hn & Nm & Hl & Hp). assert (h' = h) as -> by congruence. rewrite groups_root.
  eapply quiet_packet; [exact Hp|exact Hl|exists [h]; reflexivity|]. rewrite Nm. now intros (HL & _).
Qed.

Lemma seen_packet_paused n p ob ob' : match ob_graph ob with None => True | Some g => gr_paused g = true end ->
  see_packet P orep n p ob = (Ok tt, ob') -> counted ob ob' [p] /\ ob_graph ob' = ob_graph ob.
Proof.
  intros G H. unfold see_packet in H. apply sbind_ok in H as ([] & ob1 & H1 & H). apply sbind_ok in H as (l & ob2 & H2 & H).
  apply lift_ok in H2 as (H2 & ->). injection H as <-. cbn [ob_graph]. unfold see_manifest in H1. apply sbind_ok in H1 as (h & ob2 & H3 & H1). apply lift_ok in H3 as (_ & ->).
  assert (ob1 = ob) as ->.
  { unfold graphed, add_manifest, add_entry in H1. destruct ob as [g c b]. cbn [ob_graph] in *. destruct g as [g|]; [|injection H1 as <-; reflexivity]. rewrite G in H1. injection H1 as <-. reflexivity. }
  split; [|reflexivity]. split; [reflexivity|]. exists l. split; [|reflexivity]. exists [l]. split; [repeat constructor; exact H2|unfold zsum; cbn [fold_right]; lia].
Qed.
Lemma x_ref_trace x total num k ob p k' ob' : match ob_graph ob with None => True | Some g => gr_paused g = true end ->
  x_ref_packet P rnd now orep o x total num (k, ob) = (Ok p, (k', ob')) ->
  ref_packet P rnd now o x total num k = (Ok p, k') /\ counted ob ob' [p] /\ ob_graph ob' = ob_graph ob.
Proof.
  intros G H. unfold x_ref_packet in H. unfold ref_packet. apply sbind_ok in H as (gs & y & H1 & H). apply lift_ok in H1 as (H1 & ->).
  apply sbind_ok in H as (q & [k1 ob1] & H2 & H). apply plain_ok in H2 as (H2 & E). cbn [fst snd] in H2, E. subst ob1.
  apply sbind_ok in H as ([] & [k2 ob2] & H3 & H). apply seen_ok in H3 as (H3 & E). cbn [fst snd] in H3, E. subst k2. injection H as -> -> ->.
  apply seen_packet_paused in H3 as (C & D); [|exact G]. split; [|auto]. unfold sbind, lift. rewrite H1. exact H2.
Qed.
Lemma x_optimal_trace x n total k ob r k' ob' : x_optimal P clog rnd now orep o x n total (k, ob) = (Ok r, (k', ob')) ->
  exists r1 r2 num k1, ref_packet P rnd now o x total 1 k = (Ok r1, k1) /\ ref_packet P rnd now o x total num k1 = (Ok r2, k') /\
    max_pointers P rnd now o x total k = (Ok num, k') /\ counted ob ob' [r1; r2] /\ ob_graph ob' = option_map graph_resume (ob_graph ob).
Proof.
  intros H. unfold x_optimal in H. apply sbind_ok in H as ([] & [k1 ob1] & H1 & H). apply seen_ok in H1 as (H1 & E). cbn [fst snd] in H1, E. subst k1.
  assert (ob_cnt ob1 = ob_cnt ob /\ ob_bytes ob1 = ob_bytes ob /\ ob_graph ob1 = option_map graph_pause (ob_graph ob)) as (A1 & A2 & A3).
  { unfold graph_pause_obs, graphed, smod in H1. destruct (ob_graph ob) as [g|] eqn:Eg; injection H1 as <-; [auto|]. now rewrite Eg. }
  apply sbind_ok in H as (r0 & [k2 ob2] & H2 & H). apply sbind_ok in H as ([] & [k3 ob3] & H3 & H). apply seen_ok in H3 as (H3 & E). cbn [fst snd] in H3, E. subst k3. injection H as -> -> ->.
  assert (ob_cnt ob' = ob_cnt ob2 /\ ob_bytes ob' = ob_bytes ob2 /\ ob_graph ob' = option_map graph_resume (ob_graph ob2)) as (B1 & B2 & B3).
  { unfold graph_resume_obs, graphed, smod in H3. destruct (ob_graph ob2) as [g|] eqn:Eg; injection H3 as <-; [auto|]. now rewrite Eg. }
  unfold x_tree_params in H2. apply sbind_ok in H2 as (num & [k4 ob4] & H2 & H). cbv zeta in H. apply sbind_ok in H as (? & y & H4 & H). apply lift_ok in H4 as (_ & ->). apply lift_ok in H as (_ & H). injection H as <- <-.
  assert (G1 : match ob_graph ob1 with None => True | Some g => gr_paused g = true end) by (rewrite A3; now destruct (ob_graph ob)).
  destruct (sim_max True orep P rnd now o x total k ob1) as [(ob4 & M & _)|(_ & N & _)]; [|now elim N]. rewrite H2 in M. injection M as M1 M2 _.
  unfold x_max_pointers in H2. apply sbind_ok in H2 as (t & y & H4 & H2). apply lift_ok in H4 as (_ & ->).
  apply sbind_ok in H2 as (r1 & [k5 ob5] & R1 & H2). apply x_ref_trace in R1 as (R1 & C1 & D1); [|exact G1].
  apply sbind_ok in H2 as (l & y & H4 & H2). apply lift_ok in H4 as (_ & ->). apply sbind_ok in H2 as (? & y & H4 & H2). apply lift_ok in H4 as (_ & ->).
  apply sbind_ok in H2 as (q & y & H4 & H2). apply lift_ok in H4 as (_ & ->). cbv zeta in H2.
  apply sbind_ok in H2 as (r2 & [k6 ob6] & R2 & H2). apply x_ref_trace in R2 as (R2 & C2 & D2); [|now rewrite D1].
  apply sbind_ok in H2 as (l2 & y & H4 & H2). apply lift_ok in H4 as (_ & ->). apply sbind_ok in H2 as (? & y & H4 & H2). apply lift_ok in H4 as (_ & ->).
  apply sbind_ok in H2 as (? & y & H4 & H2). apply lift_ok in H4 as (_ & ->). injection H2 as <- <- <-.
  exists r1, r2, (q + 1), k5. split; [exact R1|]. split; [exact R2|]. split; [rewrite (surjective_pairing (max_pointers _ _ _ _ _ _ _)); congruence|]. split.
  - assert (counted ob1 ob6 ([r1] ++ [r2])) as CC by (eapply counted_trans; eassumption). destruct CC as (E1 & m & Lm & Em). split; [rewrite B1, <- A1; exact E1|]. exists m. split; [exact Lm|]. rewrite B2, <- A2. exact Em.
  - rewrite B3, D2, D1, A3. now destruct (ob_graph ob).
Qed.
Lemma tree_trace nc data s ob root s' ob' : x_manifest_tree P clog rnd now orep o nc data (s, ob) = (Ok root, (s', ob')) ->
  exists x pkts mans r1 r2 num k1 k2, ms_out s' = ms_out s ++ pkts ++ mans /\
    Forall is_data_object pkts /\ Forall (fun p => exists nd, holds_node o p nd) mans /\
    nctx_create P o nc = Ok x /\
    ref_packet P rnd now o x (zlen data) 1 (ms_nonce s) = (Ok r1, k1) /\ ref_packet P rnd now o x (zlen data) num k1 = (Ok r2, k2) /\
    max_pointers P rnd now o x (zlen data) (ms_nonce s) = (Ok num, k2) /\
    counted ob ob' ([r1; r2] ++ mans) /\
    match ob_graph ob with
    | None => ob_graph ob' = None
    | Some g => exists g' es, ob_graph ob' = Some g' /\ gr_paused g' = false /\ gr_entries g' = put_all es (gr_entries g) /\
        (current g -> current g') /\
        (forall z, In z es -> exists p, In p (pkts ++ mans) /\ shown o orep p (fst z) (snd z)) /\
        (forall p, In p (pkts ++ mans) -> exists z, In z es /\ packet_hash (pr_sha P) p = Ok (fst z)) /\
        (forall z k, In z es -> In k (ge_kids (snd z)) -> stored P (pkts ++ mans) k)
    end.
Proof.
  unfold x_manifest_tree. intros H. apply sbind_ok in H as (x & y & H1 & H). apply lift_ok in H1 as (Ex & ->).
  apply sbind_ok in H as ([[meta total] nx] & [s1 ob1] & H1 & H). apply plain_ok in H1 as (H1 & E). cbn [fst snd] in H1, E. subst ob1.
  unfold on_out in H1. pose proof (chunk_data_run P o (nx_data x) 0 data (ms_out s)) as R. unfold TreeProofs.run in R.
  destruct (chunk_data P o (nx_data x) 0 data (ms_out s)) as [rr out']. injection H1 as -> <-.
  destruct R as (ps & l & pkts & ms & _ & _ & _ & -> & He & L & E). injection E as -> -> ->.
  apply sbind_ok in H as (r & [s2 ob2] & H2 & H). unfold x_on_nonce in H2. cbn [fst snd ms_nonce ms_out] in H2.
  destruct (x_optimal P clog rnd now orep o x (zlen ms) (zlen data) (ms_nonce s, ob)) as [rr [k' ob2']] eqn:Eo. injection H2 as -> <- ->.
  apply x_optimal_trace in Eo as (r1 & r2 & num & k1 & R1 & R2 & M & C2 & G2).
  apply sbind_ok in H as (tp & [s3 ob3] & H3 & H). unfold x_build_top in H3. cbn [fst snd ms_out ms_nonce] in H3.
  set (v := env_of P o x ms r) in *. destruct (tb_init P v (ms_out s ++ pkts) k') as [b0|e] eqn:Ei; [|discriminate].
  unfold tb_init in Ei. apply bind_ok in Ei as (ids & _ & Ei). apply Ok_inj in Ei. subst b0.
  destruct (x_build P rnd now orep v (_, ob2)) as [rr [b ob3']] eqn:Eb. destruct rr as [np|e]; [|discriminate]. cbn [bind] in H3. injection H3 as <- <- ->.
  apply (x_build_trace o) with (base := length (ms_out s)) in Eb as (mans & Ob & C3 & D3 & F3 & Ht); [|reflexivity|reflexivity|cbn [b_out]; rewrite app_length; lia].
  cbn [b_out b_tail] in Ob, D3. change (te_meta v) with ms in D3.
  unfold x_build_root in H. apply sbind_ok in H as (root' & [s4 ob4] & H4 & H). unfold x_on_nonce in H4. cbn [fst snd ms_nonce ms_out] in H4.
  destruct (x_root_packet P rnd now orep o x (zlen data) (snd np) (b_nonce b, ob3)) as [rr [k4 ob4']] eqn:Er. injection H4 as -> <- ->.
  apply sbind_ok in H as (? & [s5 ob5] & H5 & H). apply plain_ok in H5 as (H5 & E). cbn [fst snd] in H5, E. subst ob5. injection H5 as _ <-. injection H as -> <- ->.
  unfold x_root_packet in Er. apply sbind_ok in Er as (h & y & Eh & Er). apply lift_ok in Eh as (Eh & ->).
  apply sbind_ok in Er as (root'' & [k5 ob5] & Er1 & Er). apply plain_ok in Er1 as (Er1 & E). cbn [fst snd] in Er1, E. subst ob5.
  apply sbind_ok in Er as ([] & [k6 ob6] & Es & Er). apply seen_ok in Es as (Es & E). cbn [fst snd] in Es, E. subst k6. injection Er as -> -> ->.
  apply root_facts in Er1 as (h' & _ & _ & Eh' & Hn & _). assert (h' = h) as -> by congruence. rewrite groups_root in Es.
  apply (packet_trace o) in Es as (C4 & D4); [|exact Hn].
  exists x, pkts, (mans ++ [root]), r1, r2, num, k1, k'. cbn [ms_out].
  split; [rewrite Ob, <- !app_assoc; reflexivity|]. split; [eapply emits_data; exact He|]. split; [apply Forall_app; split; [exact F3|repeat constructor; eauto]|].
  split; [exact Ex|]. split; [exact R1|]. split; [exact R2|]. split; [exact M|].
  split; [eapply counted_trans; [exact C2|]; eapply counted_trans; eassumption|].
  assert (Eskip : forall l, skipn (length (ms_out s)) (ms_out s ++ l) = l) by (intros l0; rewrite skipn_app, Nat.sub_diag, skipn_all; reflexivity).
  assert (D : drawn ob2 ob' (fun es => exists es1 z, about o orep v 0 (zlen ms) mans es1 /\ rec_man o orep root z /\ es = es1 ++ [z] /\
              forall y k, In y es -> In k (ge_kids (snd y)) -> (exists i, 0 <= i < zlen ms /\ k = cm_hash (chunk_meta P v i)) \/ stored P (pkts ++ mans) k)).
  { eapply drawn_trans; [|exact D3|exact D4]. intros es es2 (A & K) (z & Rz & Ez & ->). exists es, z. split; [exact A|]. split; [exact Rz|]. split; [reflexivity|].
    rewrite Ob, <- app_assoc, Eskip in Ht. unfold kids_known, known in K. rewrite Ob, <- app_assoc, Eskip in K.
    intros y k I Ik. apply in_app_iff in I as [I|[<-|[]]]; [eauto|]. rewrite Ez in Ik. destruct Ik as [<-|[]]. right. exists (snd np). auto. }
  unfold drawn in D. rewrite G2 in D. destruct (ob_graph ob) as [g|]; cbn [option_map] in D; [|exact D]. cbn [graph_resume gr_paused gr_entries] in D.
  destruct D as (es & g' & (es1 & z0 & (A1 & A2 & A3) & Rz & -> & Kn) & Eg' & Ep & Een & Ec). exists g', (es1 ++ [z0]). split; [exact Eg'|]. split; [exact Ep|]. split; [exact Een|].
  split; [intros Hc; apply Ec; exact Hc|].
  assert (RM : forall p z, rec_man o orep p z -> shown o orep p (fst z) (snd z)).
  { intros p z (nd & h0 & t & Hnd & Hh0 & Hlab & ->). cbn [fst snd]. split; [exact Hh0|]. split; [reflexivity|]. right. exists nd. cbn [ge_data ge_kids ge_label]. auto. }
  assert (RD : forall j, 0 <= j < zlen ms -> exists p, nth_error pkts (Z.to_nat j) = Some p /\ shown o orep p (fst (rec_data (chunk_meta P v j))) (snd (rec_data (chunk_meta P v j)))).
  { intros j Hj. destruct (emits_at P o (nx_data x) l pkts ms j He Hj) as (bb & p & _ & Ejp & D). exists p. split; [exact Ejp|].
    destruct D as (nm & w & hh & _ & D & _ & _ & _ & _ & _ & _ & _ & Hh & Hm). unfold chunk_meta, v, env_of. cbn [te_meta]. rewrite Hm.
    cbn [rec_data fst snd cm_hash]. split; [exact Hh|]. split; [reflexivity|]. left. split; [eexists; split; [exact D|reflexivity]|]. auto. }
  split; [|split].
  - intros z I. apply in_app_iff in I as [I|[<-|[]]].
    + destruct (A1 z I) as [(j & Hj & ->)|(p & Ip & Rp)].
      * destruct (RD j Hj) as (p & Ip & S). exists p. split; [apply in_app_iff; left; eapply nth_error_In; exact Ip|exact S].
      * exists p. split; [rewrite !in_app_iff; auto|now apply RM].
    + exists root. split; [rewrite !in_app_iff; right; right; now left|now apply RM].
  - intros p I. rewrite !in_app_iff in I. destruct I as [I|[I|[<-|[]]]].
    + apply In_nth_error in I as (j & Ij). assert (Lj : (j < length pkts)%nat) by (apply nth_error_Some; congruence).
      pose proof (emits_nth _ _ _ _ _ _ _ He) as (L1 & L2 & _).
      destruct (RD (Z.of_nat j)) as (q & Iq & S); [unfold zlen; lia|]. rewrite Nat2Z.id in Iq. assert (q = p) as -> by congruence.
      exists (rec_data (chunk_meta P v (Z.of_nat j))). split; [apply in_app_iff; left; apply A2; unfold zlen; lia|]. apply S.
    + destruct (A3 p I) as (z & Iz & Rp). exists z. split; [apply in_app_iff; auto|]. apply RM in Rp. apply Rp.
    + exists z0. split; [apply in_app_iff; right; now left|]. apply RM in Rz. apply Rz.
  - intros z k I Ik. destruct (Kn z k I Ik) as [(i & Hi & ->)|(q & Iq & Hq)].
    + destruct (RD i Hi) as (p & Ip & S & _). exists p. split; [apply in_app_iff; left; eapply nth_error_In; exact Ip|exact S].
    + exists q. split; [|exact Hq]. rewrite !in_app_iff in *. tauto.
Qed.
End Whole.

Lemma put_all_in es : forall d, NoDup (map fst d) ->
  NoDup (map fst (put_all es d)) /\
  (forall h e, In (h, e) (put_all es d) -> In (h, e) es \/ (In (h, e) d /\ forall e', ~ In (h, e') es)) /\
  (forall h e, In (h, e) d -> (forall e', ~ In (h, e') es) -> In (h, e) (put_all es d)) /\
  (forall h e, In (h, e) es -> exists e', In (h, e') (put_all es d)).
Proof.
  induction es as [|[k w] es IH]; intros d N; cbn [put_all fold_left fst snd].
  - split; [exact N|]. split; [intros h e I; right; split; [exact I|intros ? []]|]. split; [auto|intros ? ? []].
  - destruct (odict_in d k w N) as (N' & T). destruct (IH _ N') as (A & B & C & D). split; [exact A|]. split; [|split].
    + intros h e I. destruct (B h e I) as [J|(J & K)]; [left; now right|]. apply T in J as [(-> & ->)|(Ne & J)]; [left; now left|].
      right. split; [exact J|]. intros e' [[= <- <-]|L]; [congruence|eapply K; exact L].
    + intros h e I K. apply C; [|intros e' L; eapply K; right; exact L]. apply T. right. split; [|exact I]. intros ->. eapply K. now left.
    + intros h e [[= <- <-]|I]; [|eauto]. destruct (existsb (fun z => hashv_key_eqb k (fst z)) es) eqn:X.
      * apply existsb_exists in X as ([k' e'] & I & E). apply hashv_key_eqb_spec in E. cbn [fst] in E. subst k'. eauto.
      * exists w. apply C; [apply T; auto|]. intros e' L. assert (existsb (fun z => hashv_key_eqb k (fst z)) es = true) as Y; [|congruence].
        apply existsb_exists. exists (k, e'). split; [exact L|]. now apply hashv_key_eqb_spec.
Qed.

(* ---------------- C71 ---------------- *)

(* A build that returns did exactly what it does without a graph and without
   counters. *)
Theorem C71_same : forall P clog rnd now orep (o : opts P) nc data s ob root s' ob',
  x_manifest_tree P clog rnd now orep o nc data (s, ob) = (Ok root, (s', ob')) ->
  manifest_tree P clog rnd now o nc data s = (Ok root, s').
Proof.
  intros P clog rnd now orep o nc data s ob root s' ob' H. destruct (sim_tree o clog rnd now orep nc data s ob) as [(ob2 & E & _)|(_ & _ & e & y & E)].
  - rewrite H in E. injection E as E1 E2 _. rewrite (surjective_pairing (manifest_tree _ _ _ _ _ _ _ _)). congruence.
  - rewrite H in E. discriminate.
Qed.
(* If there is no graph, or if the names of the manifests can be written as
   labels, this is so for builds that fail as well. *)
Theorem C71_same_errors : forall P clog rnd now orep (o : opts P) nc data s ob r s' ob',
  ob_graph ob = None \/ names_labelable o orep nc ->
  x_manifest_tree P clog rnd now orep o nc data (s, ob) = (r, (s', ob')) ->
  manifest_tree P clog rnd now o nc data s = (r, s').
Proof.
  intros P clog rnd now orep o nc data s ob r s' ob' HL H. destruct (sim_tree o clog rnd now orep nc data s ob) as [(ob2 & E & _)|(G & N & _)].
  - rewrite H in E. injection E as E1 E2 _. rewrite (surjective_pairing (manifest_tree _ _ _ _ _ _ _ _)). congruence.
  - tauto.
Qed.

(* The count that build prints is two more than the number of manifests it
   wrote: the factory also counts the two reference manifests whose sizes tell
   how many pointers fit into one, and their bytes. *)
Theorem C71_counts : forall P clog rnd now orep (o : opts P) nc data s ob root s' ob',
  x_manifest_tree P clog rnd now orep o nc data (s, ob) = (Ok root, (s', ob')) ->
  exists datas mans, ms_out s' = ms_out s ++ datas ++ mans /\
    Forall is_data_object datas /\ Forall (fun p => exists nd, holds_node o p nd) mans /\
    ob_cnt ob' = ob_cnt ob + zlen mans + 2 /\
    exists n, lengths mans n /\
    exists x r1 r2 l1 l2 num k1 k2, nctx_create P o nc = Ok x /\ max_pointers P rnd now o x (zlen data) (ms_nonce s) = (Ok num, k2) /\
      ref_packet P rnd now o x (zlen data) 1 (ms_nonce s) = (Ok r1, k1) /\ packet_len r1 = Ok l1 /\
      ref_packet P rnd now o x (zlen data) num k1 = (Ok r2, k2) /\ packet_len r2 = Ok l2 /\
      ob_bytes ob' = ob_bytes ob + n + l1 + l2.
Proof.
  intros P clog rnd now orep o nc data s ob root s' ob' H.
  apply tree_trace in H as (x & pkts & mans & r1 & r2 & num & k1 & k2 & Eo & Fd & Fm & Ex & R1 & R2 & M & (C1 & n & (ls & F & ->) & C2) & _).
  exists pkts, mans. do 3 (split; [assumption|]). split; [rewrite C1, zlen_app, !zlen_cons, zlen_nil; lia|].
  cbn [app] in F. inversion F as [|? l1 ? ls1 E1 F1]; subst. inversion F1 as [|? l2 ? ls2 E2 F2]; subst.
  exists (zsum ls2). split; [exists ls2; auto|]. exists x, r1, r2, l1, l2, num, k1, k2. do 6 (split; [assumption|]). rewrite C2. unfold zsum. cbn [fold_right]. lia.
Qed.

(* The graph has exactly one entry for the hash of each packet that was written
   and shows of it what was written; everything it points to was written; entries
   of other hashes stay. *)
Theorem C71_graph : forall P clog rnd now orep (o : opts P) nc data s ob g root s' ob',
  ob_graph ob = Some g -> NoDup (map fst (gr_entries g)) ->
  x_manifest_tree P clog rnd now orep o nc data (s, ob) = (Ok root, (s', ob')) ->
  exists g' new, ob_graph ob' = Some g' /\ ms_out s' = ms_out s ++ new /\ gr_paused g' = false /\
    NoDup (map fst (gr_entries g')) /\
    (forall h e, In (h, e) (gr_entries g') ->
       (exists p, In p new /\ shown o orep p h e /\ forall k, In k (ge_kids e) -> stored P new k) \/
       (In (h, e) (gr_entries g) /\ ~ stored P new h)) /\
    (forall h, stored P new h -> exists e, In (h, e) (gr_entries g')) /\
    (forall h e, In (h, e) (gr_entries g) -> ~ stored P new h -> In (h, e) (gr_entries g')).
Proof.
  intros P clog rnd now orep o nc data s ob g root s' ob' Eg Nd H.
  apply tree_trace in H as (x & pkts & mans & r1 & r2 & num & k1 & k2 & Eo & _ & _ & _ & _ & _ & _ & _ & D). rewrite Eg in D.
  destruct D as (g' & es & Eg' & Ep & Een & _ & A & B & Kn). exists g', (pkts ++ mans). split; [exact Eg'|]. split; [exact Eo|]. split; [exact Ep|].
  destruct (put_all_in es (gr_entries g) Nd) as (N' & I1 & I2 & I3). rewrite Een.
  assert (S1 : forall h e, In (h, e) es -> stored P (pkts ++ mans) h).
  { intros h e I. destruct (A _ I) as (p & Ip & Sh & _). exists p. auto. }
  assert (S2 : forall h, stored P (pkts ++ mans) h -> exists e, In (h, e) es).
  { intros h (p & Ip & Hh). destruct (B p Ip) as ([h' e] & Iz & Hh'). cbn [fst] in Hh'. assert (h' = h) as -> by congruence. eauto. }
  split; [exact N'|]. split; [|split].
  - intros h e I. destruct (I1 h e I) as [J|(J & K)]; [left; destruct (A (h, e) J) as (p & Ip & Sp); exists p; split; [exact Ip|]; split; [exact Sp|]; intros k; exact (Kn (h, e) k J)|]. right. split; [exact J|]. intros S. destruct (S2 h S) as (e' & Ie). eapply K. exact Ie.
  - intros h S. destruct (S2 h S) as (e' & Ie). eauto.
  - intros h e I N. apply I2; [exact I|]. intros e' J. apply N. eapply S1. exact J.
Qed.


(* Each edge of the picture of a build ends at an entry, and plot() finds the
   color and the label of each node. *)
Theorem C71_picture : forall P clog rnd now orep (o : opts P) nc data s c0 b0 root s' ob',
  x_manifest_tree P clog rnd now orep o nc data (s, mkObs (Some graph_new) c0 b0) = (Ok root, (s', ob')) ->
  exists g', ob_graph ob' = Some g' /\
    (forall a e k, In (a, e) (gr_entries g') -> In k (ge_kids e) -> exists e', In (k, e') (gr_entries g')) /\
    let d := fst (graph_drawing g') in
    exists l, plot_nodes d = Ok l /\
      (forall a b, In (a, b) (dr_edges d) <-> exists h e k, In (h, e) (gr_entries g') /\ In k (ge_kids e) /\ a = short h /\ b = short k) /\
      ((forall h1 e1 h2 e2, In (h1, e1) (gr_entries g') -> In (h2, e2) (gr_entries g') -> short h1 = short h2 -> h1 = h2) ->
       forall x c t, In (x, (c, t)) l <-> exists h e, In (h, e) (gr_entries g') /\ x = short h /\ c = ge_data e /\ t = ge_label e).
Proof.
  intros P clog rnd now orep o nc data s c0 b0 root s' ob' H.
  pose proof H as T. apply tree_trace in T as (x & pkts & mans & r1 & r2 & num & k1 & k2 & Eo & _ & _ & _ & _ & _ & _ & _ & D). cbn [ob_graph] in D.
  destruct D as (g1 & es & Eg1 & _ & _ & Cur & _).
  assert (N0 : NoDup (map fst (gr_entries graph_new))) by constructor.
  destruct (C71_graph _ _ _ _ _ _ _ _ _ (mkObs (Some graph_new) c0 b0) graph_new _ _ _ eq_refl N0 H) as (g' & new & Eg & En' & _ & N' & A & B & _).
  assert (g1 = g') as -> by congruence. exists g'. split; [exact Eg|].
  assert (Hcl : forall a e k, In (a, e) (gr_entries g') -> In k (ge_kids e) -> exists e', In (k, e') (gr_entries g')).
  { intros a e k I Ik. destruct (A a e I) as [(p & Ip & _ & K)|(I' & _)]; [|destruct I']. apply B. now apply K. }
  split; [exact Hcl|]. apply picture; [|exact N'| |exact Hcl].
  - apply Cur. intros ? [=].
  - intros h e I. destruct (A h e I) as [(p & _ & (_ & E & _) & _)|(I' & _)]; [exact E|destruct I'].
Qed.

(* A build of 3000 bytes with a graph: the printed count is two more than the
   manifests among the packets, the graph has the entries of all packets. *)
Definition ex_run71 (o : opts toy) (g : graph) (data : bytes) :=
  x_manifest_tree toy exact_log (fun _ => []) (mkFl 0 0) no_repr o 1 data (mkMst [] 0, mkObs (Some g) 0 0).
Definition is_man (p : packet) : bool := match p_body p with BCO c => match co_ptype c with Some t => t =? PT_MANIFEST | None => false end | _ => false end.
Definition ex_seen71 (o : opts toy) (data : bytes) : option exn * (Z * Z * Z) * option (Z * bool) * option (Z * nat) :=
  match ex_run71 o graph_new data with
  | (r, (s, ob)) =>
    (match r with Ok _ => None | Err e => Some e end, (zlen (ms_out s), zlen (filter is_man (ms_out s)), ob_cnt ob),
     option_map (fun g => (zlen (gr_entries g), gr_paused g)) (ob_graph ob),
     match ob_graph ob with
     | Some g => match plot_nodes (fst (graph_drawing g)) with Ok l => Some (zlen l, length (dr_edges (fst (graph_drawing g)))) | Err _ => None end
     | None => None
     end)
  end.
Example C71_ex :
  map (fun ty => ex_seen71 (ex_deg ty None) (repeat 7 3000)) [Hashed; Prefixed; Segmented] =
    [(None, (14, 3, 5), Some (5, false), Some (5, 5%nat)); (None, (16, 4, 6), Some (6, false), Some (6, 7%nat));
     (None, (16, 4, 6), Some (16, false), Some (16, 15%nat))].
Proof. vm_compute. reflexivity. Qed.
(* the names of these builds can be written as labels *)
Example C71_labels_ex : names_labelable (ex_deg Segmented None) no_repr 1.
Proof.
  assert (S : match nctx_create toy (ex_deg Segmented None) 1 with
              | Ok x => match im_schema (nx_man x) with SSeg (Some _) (Some ty) _ _ => ty =? T_MANIFESTID | _ => false end
              | Err _ => false end = true) by (vm_compute; reflexivity).
  split.
  - intros h. change (op_name (ex_deg Segmented None)) with (Some (ex_name [97])). eexists. unfold label_from_name.
    change (rev (ex_name [97])) with [mkComp 1 KBytes [97]]. change ((c_type (mkComp 1 KBytes [97]) =? T_MANIFESTID) || (c_type (mkComp 1 KBytes [97]) =? T_CHUNKID)) with false.
    cbv iota. vm_compute. reflexivity.
  - intros x id nm E H. rewrite E in S. unfold impl_name in H. destruct (im_schema (nx_man x)) as [|nm' ls|[n|] [ty|] ls]; try discriminate.
    apply bind_ok in H as (a & _ & H). apply bind_ok in H as (t & _ & H). apply bind_ok in H as (t' & _ & H). apply Ok_inj in H. subst nm.
    intros h. unfold label_from_name. rewrite rev_app_distr. cbn [rev app c_type]. rewrite S. cbn [orb]. eauto.
Qed.
Definition ex_noname (ty : stype) : opts toy :=
  mkOpts toy (Some []) ty None (Some (ex_name [97; 109])) (Some (ex_name [97; 100]))
    None None None None None ENone true true true None 300.
Lemma is_ok {S A} (r : res A * S) : match fst r with Ok _ => true | Err _ => false end = true -> exists a s, r = (Ok a, s).
Proof. destruct r as [[a|e] s]; [eauto|discriminate]. Qed.
Lemma is_assertion {S A} (r : res A * S) : match fst r with Err AssertionError => true | _ => false end = true -> exists s, r = (Err AssertionError, s).
Proof. destruct r as [[a|e] s]; [discriminate|]. destruct e; try discriminate. eauto. Qed.
Lemma is_paused {S A} (r : res A * (S * obs)) :
  match r with (Err _, (_, ob)) => match ob_graph ob with Some g => gr_paused g | None => false end | _ => false end = true ->
  exists s' ob' e g, r = (Err e, (s', ob')) /\ ob_graph ob' = Some g /\ gr_paused g = true.
Proof. destruct r as [[a|e] [s ob]]; [discriminate|]. destruct (ob_graph ob) as [g|] eqn:E; [|discriminate]. intros H. exists s, ob, e, g. auto. Qed.
(* A name without components has no label: the build fails when there is a
   graph, and only then. *)
Theorem C71_same_errors_refuted : exists (o : opts toy) nc data s root s',
  manifest_tree toy exact_log (fun _ => []) (mkFl 0 0) o nc data s = (Ok root, s') /\
  exists y, x_manifest_tree toy exact_log (fun _ => []) (mkFl 0 0) no_repr o nc data (s, mkObs (Some graph_new) 0 0) = (Err AssertionError, y).
Proof.
  exists (ex_noname Prefixed), 1, (repeat 7 3000), (mkMst [] 0).
  destruct (is_ok (manifest_tree toy exact_log (fun _ => []) (mkFl 0 0) (ex_noname Prefixed) 1 (repeat 7 3000) (mkMst [] 0))) as (root & s' & E); [vm_compute; reflexivity|].
  exists root, s'. split; [exact E|]. apply is_assertion. vm_compute. reflexivity.
Qed.
(* When the parameters of the tree cannot be found, the graph stays paused, and
   whatever is added to it later is not recorded. *)
Theorem C71_resumed_refuted : exists (o : opts toy) nc data s s' ob' e g,
  x_manifest_tree toy exact_log (fun _ => []) (mkFl 0 0) no_repr o nc data (s, mkObs (Some graph_new) 0 0) = (Err e, (s', ob')) /\
  ob_graph ob' = Some g /\ forall h nm, add_data no_repr h nm g = (Ok tt, g).
Proof.
  exists (ex_deg Hashed (Some 1)), 1, (repeat 7 3000), (mkMst [] 0).
  destruct (is_paused (ex_run71 (ex_deg Hashed (Some 1)) graph_new (repeat 7 3000))) as (s' & ob' & e & g & E & Eg & B); [vm_compute; reflexivity|].
  exists s', ob', e, g. split; [exact E|]. split; [exact Eg|]. intros h nm. unfold add_data, add_entry. now rewrite B.
Qed.

Print Assumptions C71_same.
Print Assumptions C71_same_errors.
Print Assumptions C71_counts.
Print Assumptions C71_graph.
Print Assumptions C71_picture.
Print Assumptions C71_same_errors_refuted.
Print Assumptions C71_resumed_refuted.
