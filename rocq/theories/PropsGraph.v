(* C70: the picture of a tree. *)
From Coq Require Import ZArith List Bool Lia ZifyBool.
From Verif Require Import Py Float Tlv Core TlvProofs CoreProofs Spec Flic Crypto CryptoProofs PropsCrypto
  Optimizer Tree TreeSpec Store StoreProofs PropsStore Traversal TraversalSpec TraversalProofs PropsTraversal Uri Graph.
Import ListNotations.
Open Scope Z_scope.

(* ---------------- specification ---------------- *)

(* the packets of a visit and the nodes of those that are manifests, in
   preorder *)
Fixpoint events (t : ptree) : list (packet * option node) :=
  let 'PT p n kids _ := t in (p, n) :: flat_map events kids.

Section Spec.
Variable P : prims.
Variable other_repr : comp -> text.
(* What is recorded of a packet with hash h: whether it is a data object, its
   hash, a label, the pointers of a manifest. *)
Definition describes (p : packet) (n : option node) (h : hashv) (e : gentry) : Prop :=
  packet_hash (pr_sha P) p = Ok h /\ ge_parent e = h /\
  label_from_name other_repr h (body_name p) = Ok (ge_label e) /\
  match n with
  | None => ge_data e = true /\ ge_kids e = []
  | Some n => ge_data e = false /\ ge_kids e = node_ptrs n
  end.
(* The entries are those of the packets seen, one for each hash; for the same
   hash the last packet seen counts. *)
Definition records (es : list (hashv * gentry)) (evs : list (packet * option node)) : Prop :=
  NoDup (map fst es) /\
  forall h e, In (h, e) es <->
    exists pre p n post, evs = pre ++ (p, n) :: post /\ describes p n h e /\
      Forall (fun x => packet_hash (pr_sha P) (fst x) <> Ok h) post.
(* every packet seen can be described *)
Definition described (evs : list (packet * option node)) : Prop :=
  Forall (fun x => exists h e, describes (fst x) (snd x) h e) evs.
End Spec.

(* ---------------- ordered dicts ---------------- *)

Lemma odict_in {V} (d : list (hashv * V)) k v : NoDup (map fst d) ->
  NoDup (map fst (odict_set hashv_key_eqb k v d)) /\
  forall k' v', In (k', v') (odict_set hashv_key_eqb k v d) <-> (k' = k /\ v' = v) \/ (k' <> k /\ In (k', v') d).
Proof.
  induction d as [|[k0 v0] d IH]; intros N.
  - cbn. split; [repeat constructor; tauto|]. intros k' v'. split; [intros [[= <- <-]|[]]; auto|]. intros [(-> & ->)|(_ & [])]. auto.
  - cbn [odict_set]. pose proof N as N0. cbn [map fst] in N0. apply NoDup_cons_iff in N0 as (N1 & N2). destruct (hashv_key_eqb k k0) eqn:E.
    + apply hashv_key_eqb_spec in E. subst k0. split; [exact N|]. intros k' v'. cbn [In]. split.
      * intros [[= <- <-]|H]; [auto|]. right. split; [|auto]. intros ->. apply N1. apply in_map_iff. exists (k, v'). split; [reflexivity|exact H].
      * intros [(-> & ->)|(Ne & [[= <- <-]|H])]; auto. congruence.
    + destruct (IH N2) as (A & B). assert (k <> k0) as Ne by (intros ->; rewrite (proj2 (hashv_key_eqb_spec k0 k0) eq_refl) in E; discriminate). split.
      * constructor; [|exact A]. intros H. apply in_map_iff in H as ([k1 v1] & E1 & H). cbn [fst] in E1. subst k1. apply B in H as [(-> & _)|(_ & H)]; [congruence|].
        apply N1. apply in_map_iff. exists (k0, v1). auto.
      * intros k' v'. cbn [In]. rewrite B. split.
        -- intros [[= <- <-]|[H|H]]; [right; split; [congruence|auto]|auto|]. right. tauto.
        -- intros [H|(H1 & [[= <- <-]|H2])]; auto.
Qed.

Lemma node_iter_ptrs gs : forall items, node_iter gs = (items, None) ->
  mapM (fun g => match hg_ptrs g with Some l => Ok l | None => Err TypeError end) gs = Ok (map (fun g => match hg_ptrs g with Some l => l | None => [] end) gs) /\
  flat_map (fun g => match hg_ptrs g with Some l => l | None => [] end) gs = map hi_hash items.
Proof.
  assert (G : forall gd ps i items, group_iter gd i ps = (items, None) -> ps = map hi_hash items).
  { intros gd. induction ps as [|p ps IH]; intros i items H; cbn [group_iter] in H; [injection H as <-; reflexivity|].
    destruct gd as [g|]; [|discriminate]. destruct (gd_nc_id g) as [nc|]; [|discriminate].
    destruct (group_iter (Some g) (i + 1) ps) as [r e] eqn:E. injection H as <- ->. cbn [map hi_hash]. f_equal. eapply IH. exact E. }
  induction gs as [|g gs IH]; intros items H; cbn [node_iter] in H; [injection H as <-; split; reflexivity|].
  destruct (hg_ptrs g) as [ps|] eqn:Ep; [|discriminate]. destruct (group_iter (hg_data g) 0 ps) as [r [e|]] eqn:E; [discriminate|].
  destruct (node_iter gs) as [r' e'] eqn:E2. injection H as <- ->. destruct (IH r' eq_refl) as (A & B).
  cbn [mapM flat_map map]. rewrite Ep, A, B. cbn [bind]. split; [reflexivity|]. rewrite map_app. f_equal. eapply G. exact E.
Qed.
Lemma node_hash_iter n items : node_iter (n_groups n) = (items, None) -> node_hash_values n = Ok (node_ptrs n) /\ node_ptrs n = map hi_hash items.
Proof.
  intros H. apply node_iter_ptrs in H as (A & B). unfold node_hash_values, node_ptrs. rewrite A. cbn [bind].
  rewrite <- flat_map_concat_map. auto.
Qed.

(* ---------------- adding ---------------- *)

Lemma destruct_last {A} (l : list A) : l = [] \/ exists l' y, l = l' ++ [y].
Proof. destruct l as [|a l]; [auto|right]. destruct (exists_last (l := a :: l)) as (l' & y & E); [discriminate|]. eauto. Qed.

Section Graph.
Variable P : prims.
Variable other_repr : comp -> text.
Notation records := (records P other_repr).
Notation describes := (describes P other_repr).

Lemma records_nil : records [] [].
Proof. split; [constructor|]. intros h e. split; [intros []|]. intros (pre & p & n & post & H & _). now destruct pre. Qed.
Lemma records_snoc es evs p n h x : records es evs -> describes p n h x -> records (odict_set hashv_key_eqb h x es) (evs ++ [(p, n)]).
Proof.
  intros (N & R) D. destruct (odict_in es h x N) as (N' & I). split; [exact N'|]. intros h' e. rewrite I. split.
  - intros [(-> & ->)|(Ne & H)].
    + exists evs, p, n, []. auto.
    + apply R in H as (pre & q & m & post & -> & D' & F). exists pre, q, m, (post ++ [(p, n)]). split; [now rewrite <- app_assoc|].
      split; [exact D'|]. apply Forall_app. split; [exact F|]. constructor; [|constructor]. cbn [fst]. destruct D as (-> & _). congruence.
  - intros (pre & q & m & post & E & D' & F). destruct (destruct_last post) as [->|(post' & y & ->)].
    + apply app_inj_tail in E as (-> & E). injection E as -> ->. left.
      destruct D as (A1 & A2 & A3 & A4), D' as (B1 & B2 & B3 & B4). assert (h' = h) as -> by congruence. split; [reflexivity|].
      destruct x as [x1 x2 x3 x4], e as [e1 e2 e3 e4]. cbn [ge_data ge_parent ge_label ge_kids] in *.
      assert (x3 = e3) by congruence. destruct m; destruct A4, B4; subst; congruence.
    + rewrite app_comm_cons, app_assoc in E. apply app_inj_tail in E as (-> & <-). apply Forall_app in F as (F & Fy). inversion Fy as [|? ? Fh _]; subst. cbn [fst] in Fh.
      right. split; [destruct D as (D & _); congruence|]. apply R. exists pre, q, m, post'. auto.
Qed.

Lemma add_manifest_ok h n p g g' : gr_paused g = false -> packet_hash (pr_sha P) p = Ok h ->
  add_manifest other_repr h n (body_name p) g = (Ok tt, g') ->
  gr_paused g' = false /\ exists x, describes p (Some n) h x /\ gr_entries g' = odict_set hashv_key_eqb h x (gr_entries g).
Proof.
  unfold add_manifest, add_entry. intros -> Hh H. destruct (node_hash_values n) as [ks|e] eqn:En; [|discriminate]. cbn [bind] in H.
  destruct (label_from_name other_repr h (body_name p)) as [l|e] eqn:El; [|discriminate]. cbn [bind] in H. injection H as <-.
  split; [reflexivity|]. exists (mkEntry false h l ks). split; [|reflexivity]. split; [exact Hh|]. split; [reflexivity|]. split; [exact El|].
  split; [reflexivity|]. cbn [ge_kids]. unfold node_hash_values in En. apply bind_ok in En as (ls & Em & En). apply Ok_inj in En. subst ks.
  unfold node_ptrs. revert ls Em. induction (n_groups n) as [|g0 gs IH]; intros ls Em; cbn [mapM] in Em; [apply Ok_inj in Em; subst; reflexivity|].
  destruct (hg_ptrs g0) as [l0|] eqn:E0; [|discriminate]. cbn [bind] in Em. apply bind_ok in Em as (ls' & Em & E). apply Ok_inj in E. subst ls.
  cbn [concat flat_map]. rewrite E0, (IH ls' Em). reflexivity.
Qed.
Lemma add_data_ok h p g g' : gr_paused g = false -> packet_hash (pr_sha P) p = Ok h ->
  add_data other_repr h (body_name p) g = (Ok tt, g') ->
  gr_paused g' = false /\ exists x, describes p None h x /\ gr_entries g' = odict_set hashv_key_eqb h x (gr_entries g).
Proof.
  unfold add_data, add_entry. intros -> Hh H. cbn [bind] in H.
  destruct (label_from_name other_repr h (body_name p)) as [l|e] eqn:El; [|discriminate]. cbn [bind] in H. injection H as <-.
  split; [reflexivity|]. exists (mkEntry true h l []). split; [|reflexivity]. split; [exact Hh|]. split; [reflexivity|]. split; [exact El|].
  split; reflexivity.
Qed.

(* ---------------- the traversal ---------------- *)

Variable get : option name -> option hashv -> res packet.
Variable wr : bool.
Variable ks : option (keystore P).
Notation valid := (validate_packet P ks).
Notation walk := (walk get valid wr (readable P) (fun p _ => encrypted p)).
Notation walks := (walks get valid wr (readable P) (fun p _ => encrypted p)).
Notation after := (after P wr ks).

(* from one state with graph to the next, [evs] seen *)
Definition gafter (x x' : gst P) (evs : list (packet * option node)) : Prop :=
  after (fst x) (fst x') (map fst evs) /\ gr_paused (snd x') = false /\ described P other_repr evs /\
  forall seen, records (gr_entries (snd x)) seen -> records (gr_entries (snd x')) (seen ++ evs).
Lemma gafter_trans x y z a b : gafter x y a -> gafter y z b -> gafter x z (a ++ b).
Proof.
  intros (A1 & A2 & A3 & A4) (B1 & B2 & B3 & B4). split; [rewrite map_app; eapply after_trans; eassumption|]. split; [exact B2|].
  split; [apply Forall_app; auto|]. intros seen R. rewrite app_assoc. auto.
Qed.
Lemma events_visited : forall t, map fst (events t) = visited t.
Proof.
  fix IH 1. intros [p n kids st]. cbn [events visited map fst]. f_equal.
  induction kids as [|k kids IHk]; [reflexivity|]. cbn [flat_map]. rewrite map_app, IH, IHk. reflexivity.
Qed.

Definition gsound_go (D : scope) (go : packet -> st (gst P) unit) : Prop :=
  forall p x x', go p x = (Ok tt, x') -> same_keys P (ts_keystore P (fst x)) ks -> gr_paused (snd x) = false ->
  exists t, walk D t /\ pt_packet t = p /\ pt_stop t = None /\ gafter x x' (events t).

Lemma gvisit_sound D c go : cache_of c D -> scope_ok D -> gsound_go D go ->
  forall items x x', gvisit_children P get go c items x = (Ok tt, x') ->
  same_keys P (ts_keystore P (fst x)) ks -> gr_paused (snd x) = false ->
  exists kids, walks D items None kids None /\ gafter x x' (flat_map events kids).
Proof.
  intros HC HD HG. induction items as [|i items IH]; intros x x' H HK Hp; cbn [gvisit_children] in H.
  - injection H as <-. exists []. split; [constructor|]. split; [apply after_nil; exact HK|]. split; [exact Hp|]. split; [constructor|].
    intros seen R. cbn [flat_map]. now rewrite app_nil_r.
  - unfold sbind at 1, lift in H. rewrite (fetch_target get c D i HC HD) in H.
    destruct (target get D i) as [p|e] eqn:Et; [|discriminate].
    unfold sbind at 1, on_ts, validate, sbind at 1, sget, lift in H. rewrite (validate_keys P _ ks p HK) in H.
    destruct (valid p) as [[]|e] eqn:Ev; [|discriminate]. unfold sbind at 1 in H. destruct x as [s g]. cbn [fst snd] in *.
    destruct (go p (s, g)) as [[[]|e] x1] eqn:Eg; [|discriminate].
    destruct (HG _ _ _ Eg HK Hp) as (t & Wt & <- & Es & A). destruct (IH x1 x' H (proj2 (proj2 (proj1 A))) (proj1 (proj2 A))) as (kids & W & B).
    exists (t :: kids). split; [eapply WS_next; eassumption|]. cbn [flat_map]. eapply gafter_trans; eassumption.
Qed.

Lemma gpreorder_sound f : forall c D, cache_of c D -> scope_ok D -> gsound_go D (gpreorder P other_repr get wr f c).
Proof.
  induction f as [|f IH]; intros c D HC HD p [s g] x' H HK Hp; cbn [gpreorder] in H; [discriminate|]. cbn [fst snd] in HK, Hp.
  unfold sbind at 1, on_ts at 1, smod in H. cbn [fst snd] in H. set (s0 := mkTs (ts_count s + 1) (ts_out s) (ts_dc s)) in H.
  destruct (p_body p) as [b|n] eqn:Eb; [|discriminate]. destruct (co_ptype b) as [ty|] eqn:Ety; [|discriminate].
  destruct (ty =? PT_MANIFEST) eqn:Em.
  - apply Z.eqb_eq in Em. subst ty. assert (data_of p = []) as Hd by (unfold data_of; rewrite Eb, Ety; destruct (co_payload b); reflexivity).
    unfold sbind at 1, lift in H. destruct (man_from_content b) as [m|e] eqn:Emf; [|discriminate].
    unfold sbind at 1, on_ts at 1 in H. cbn [fst snd] in H. destruct (t_decrypt P m s0) as [[m'|e] s1] eqn:Ed; [|discriminate].
    destruct (decrypts_readable P p b m s0 _ s1 Eb Ety Emf I Ed) as [_ (n & Hn & Ho)].
    apply t_decrypt_sound in Ed as (C1 & O1 & K1 & _).
    assert (after s s1 [p]) as A1.
    { split; [|split]; [rewrite C1; reflexivity| |unfold same_keys in *; cbn [ts_keystore s0 ts_dc] in *; rewrite K1; exact HK].
      rewrite O1. cbn [s0 ts_out]. unfold emitted. destruct wr; [|now rewrite app_nil_r]. cbn [flat_map]. rewrite Hd. cbn [app]. now rewrite app_nil_r. }
    unfold sbind at 1 in H. rewrite Hn in H. unfold sbind at 1, lift in H.
    destruct (packet_hash (pr_sha P) p) as [h|e] eqn:Eh; [|discriminate].
    unfold on_graph in H. cbn [fst snd] in H. destruct (add_manifest other_repr h n (body_name p) g) as [[[]|e] g1] eqn:Ea; [|discriminate].
    destruct (add_manifest_ok h n p g g1 Hp Eh Ea) as (Hp1 & x & Dx & Ex).
    unfold sbind at 1, lift, update_nc_cache in H. rewrite Hn in H.
    pose proof (update_defs D (node_defs n) c HC) as U. unfold node_defs in U at 1.
    replace (match n_data n with None => Ok c | Some d => foldM cache_def c (nd_ncdefs d) end)
      with (foldM cache_def c match n_data n with Some d => nd_ncdefs d | None => [] end) in H
      by (destruct (n_data n); reflexivity).
    destruct (foldM cache_def c match n_data n with Some d => nd_ncdefs d | None => [] end) as [c1|e] eqn:Ef; [|discriminate].
    destruct U as [U1 U2]. unfold man_hash_values in H. rewrite Hn in H.
    destruct (node_iter (n_groups n)) as [items trail] eqn:Ei. unfold sbind at 1 in H.
    assert (scope_ok (node_defs n :: D)) as HD' by (constructor; assumption).
    destruct (gvisit_children P get (gpreorder P other_repr get wr f c1) c1 items (s1, g1)) as [[[]|e] x2] eqn:Ev; [|discriminate].
    destruct trail as [e|]; [discriminate|]. injection H as <-.
    destruct (gvisit_sound _ _ _ U2 HD' (IH c1 _ U2 HD') _ _ _ Ev (proj2 (proj2 A1)) Hp1) as (kids & W & B).
    exists (PT p (Some n) kids None). cbn [pt_packet pt_stop events].
    split; [eapply W_manifest; rewrite ?Ei; eassumption|]. split; [reflexivity|]. split; [reflexivity|].
    apply (gafter_trans _ (s1, g1) _ [(p, Some n)]); [|exact B]. split; [exact A1|]. split; [exact Hp1|]. split; [constructor; [exists h, x; exact Dx|constructor]|]. cbn [snd]. intros seen R.
    rewrite Ex. apply records_snoc; assumption.
  - destruct (ty =? PT_DATA) eqn:Edt; [|discriminate]. apply Z.eqb_eq in Edt. subst ty.
    unfold sbind at 1, lift in H. destruct (packet_hash (pr_sha P) p) as [h|e] eqn:Eh; [|discriminate].
    unfold sbind at 1, on_graph in H. cbn [fst snd] in H. destruct (add_data other_repr h (body_name p) g) as [[[]|e] g1] eqn:Ea; [|discriminate].
    destruct (add_data_ok h p g g1 Hp Eh Ea) as (Hp1 & x & Dx & Ex). unfold on_ts, write_data, lift, smod, sret in H. cbn [fst snd] in H.
    exists (PT p None [] None). cbn [pt_packet pt_stop events flat_map].
    assert (wr = true -> co_payload b <> None) as Hpl by (intros E; rewrite E in H; destruct (co_payload b); [discriminate|injection H; discriminate]).
    split; [eapply W_data; eassumption|]. split; [reflexivity|]. split; [reflexivity|].
    assert (after s (fst x') [p] /\ snd x' = g1) as (A & Eg).
    { unfold after. unfold emitted. cbn [flat_map]. unfold data_of. rewrite Eb, Ety. change (PT_DATA =? PT_DATA) with true.
      destruct wr; [destruct (co_payload b) as [pl|]; [|discriminate]|]; injection H as <-; cbn [fst snd ts_count ts_out s0]; (split; [|reflexivity]);
      (split; [reflexivity|]; split; [rewrite ?app_nil_r; reflexivity|exact HK]). }
    split; [exact A|]. rewrite Eg. split; [exact Hp1|]. split; [constructor; [exists h, x; exact Dx|constructor]|]. intros seen R. rewrite Ex. apply records_snoc; assumption.
Qed.

(* a successful traversal without a graph also succeeds with one *)
Definition labelled (p : packet) : Prop :=
  exists h l, packet_hash (pr_sha P) p = Ok h /\ label_from_name other_repr h (body_name p) = Ok l.
Hypothesis Hlab : forall nm h p, get nm h = Ok p -> labelled p.
Lemma add_manifest_succeeds p n h items g : labelled p -> packet_hash (pr_sha P) p = Ok h -> node_iter (n_groups n) = (items, None) ->
  exists g', add_manifest other_repr h n (body_name p) g = (Ok tt, g').
Proof.
  intros (h' & l & Hh & Hl) Eh Hi. assert (h' = h) as -> by congruence. apply node_hash_iter in Hi as (Hi & _).
  unfold add_manifest, add_entry. rewrite Hi, Hl. cbn [bind]. destruct (gr_paused g); eauto.
Qed.
Lemma add_data_succeeds p h g : labelled p -> packet_hash (pr_sha P) p = Ok h ->
  exists g', add_data other_repr h (body_name p) g = (Ok tt, g').
Proof.
  intros (h' & l & Hh & Hl) Eh. assert (h' = h) as -> by congruence. unfold add_data, add_entry. rewrite Hl. cbn [bind]. destruct (gr_paused g); eauto.
Qed.
Definition follows_go (go : packet -> st (tst P) unit) (gg : packet -> st (gst P) unit) : Prop :=
  forall p s s' g, labelled p -> go p s = (Ok tt, s') -> exists g', gg p (s, g) = (Ok tt, (s', g')).
Lemma gvisit_follows go gg c : follows_go go gg -> forall items s s' g,
  visit_children P get go c items s = (Ok tt, s') -> exists g', gvisit_children P get gg c items (s, g) = (Ok tt, (s', g')).
Proof.
  intros F. induction items as [|i items IH]; intros s s' g H; cbn [visit_children gvisit_children] in *.
  - injection H as <-. exists g. reflexivity.
  - unfold sbind at 1, lift in H. unfold sbind at 1, lift at 1. destruct (fetch_packet get c i) as [p|e] eqn:Ep; [|discriminate].
    unfold sbind at 1 in H. unfold sbind at 1, on_ts. cbn [fst snd]. destruct (validate P p s) as [[[]|e] s1] eqn:Ev; [|discriminate].
    unfold sbind at 1 in H. destruct (go p s1) as [[[]|e] s2] eqn:Eg; [|discriminate].
    assert (labelled p) as Lp. { unfold fetch_packet in Ep. destruct (dict_get _ _ _); [|discriminate]. apply bind_ok in Ep as (nm & _ & Ep). eapply Hlab. exact Ep. }
    destruct (F p s1 s2 g Lp Eg) as (g1 & E1). unfold sbind at 1. rewrite E1. apply IH. exact H.
Qed.
Lemma gpreorder_follows f : forall c, follows_go (preorder P get wr f c) (gpreorder P other_repr get wr f c).
Proof.
  induction f as [|f IH]; intros c p s s' g Lp H; cbn [preorder gpreorder] in *; [discriminate|].
  unfold sbind at 1, smod in H. unfold sbind at 1, on_ts at 1, smod. cbn [fst snd]. set (s0 := mkTs (ts_count s + 1) (ts_out s) (ts_dc s)) in *.
  destruct (p_body p) as [b|n] eqn:Eb; [|discriminate]. destruct (co_ptype b) as [ty|] eqn:Ety; [|discriminate].
  pose proof Lp as (h & l & Hh & _). destruct (ty =? PT_MANIFEST) eqn:Em.
  - unfold sbind at 1, lift in H. unfold sbind at 1, lift at 1. destruct (man_from_content b) as [m|e] eqn:Emf; [|discriminate].
    unfold sbind at 1 in H. unfold sbind at 1, on_ts at 1. cbn [fst snd]. destruct (t_decrypt P m s0) as [[m'|e] s1] eqn:Ed; [|discriminate].
    unfold sbind at 1, lift in H. destruct (update_nc_cache c m') as [c1|e] eqn:Eu; [|discriminate].
    destruct (m_node m') as [n|ct] eqn:Hn; [|unfold update_nc_cache in Eu; rewrite Hn in Eu; discriminate]. cbv iota beta.
    unfold man_hash_values in *. rewrite Hn in *. destruct (node_iter (n_groups n)) as [items trail] eqn:Ei.
    unfold sbind at 1 in H. destruct (visit_children P get (preorder P get wr f c1) c1 items s1) as [[[]|e] s2] eqn:Ev; [|discriminate].
    destruct trail as [e|]; [discriminate|]. injection H as <-.
    destruct (add_manifest_succeeds p n h items g Lp Hh Ei) as (g1 & E1).
    destruct (gvisit_follows _ _ c1 (IH c1) items s1 s2 g1 Ev) as (g2 & E2). exists g2.
    unfold sbind at 1. unfold sbind at 1, lift at 1. rewrite Hh. unfold on_graph. cbn [fst snd]. rewrite E1.
    unfold sbind at 1, lift at 1. unfold sbind at 1. rewrite E2. reflexivity.
  - destruct (ty =? PT_DATA) eqn:Edt; [|discriminate].
    destruct (add_data_succeeds p h g Lp Hh) as (g1 & E1). exists g1.
    unfold sbind at 1, lift. rewrite Hh. unfold sbind at 1, on_graph. cbn [fst snd]. rewrite E1. unfold on_ts. cbn [fst snd]. rewrite H. reflexivity.
Qed.
End Graph.

(* a traversal with a graph that succeeds does what the one without does *)
Lemma gvisit_erase P get (go : packet -> st (tst P) unit) (gg : packet -> st (gst P) unit) c :
  (forall p s s' g g', gg p (s, g) = (Ok tt, (s', g')) -> go p s = (Ok tt, s')) -> forall items s s' g g',
  gvisit_children P get gg c items (s, g) = (Ok tt, (s', g')) -> visit_children P get go c items s = (Ok tt, s').
Proof.
  intros F. induction items as [|i items IH]; intros s s' g g' H; cbn [visit_children gvisit_children] in *.
  - injection H as <- _. reflexivity.
  - unfold sbind at 1, lift in H. unfold sbind at 1, lift at 1. destruct (fetch_packet get c i) as [p|e] eqn:Ep; [|discriminate].
    unfold sbind at 1, on_ts in H. unfold sbind at 1. cbn [fst snd] in H. destruct (validate P p s) as [[[]|e] s1] eqn:Ev; [|discriminate].
    unfold sbind at 1 in H. destruct (gg p (s1, g)) as [[[]|e] [s2 g2]] eqn:Eg; [|discriminate].
    apply F in Eg. unfold sbind at 1. rewrite Eg. eapply IH. exact H.
Qed.
Lemma gpreorder_erase P orep get wr f : forall c p s s' g g',
  gpreorder P orep get wr f c p (s, g) = (Ok tt, (s', g')) -> preorder P get wr f c p s = (Ok tt, s').
Proof.
  induction f as [|f IH]; intros c p s s' g g' H; cbn [preorder gpreorder] in *; [discriminate|].
  unfold sbind at 1, on_ts at 1, smod in H. unfold sbind at 1, smod. cbn [fst snd] in H. set (s0 := mkTs (ts_count s + 1) (ts_out s) (ts_dc s)) in *.
  destruct (p_body p) as [b|n] eqn:Eb; [|discriminate]. destruct (co_ptype b) as [ty|] eqn:Ety; [|discriminate].
  destruct (ty =? PT_MANIFEST) eqn:Em.
  - unfold sbind at 1, lift at 1 in H. unfold sbind at 1, lift at 1. destruct (man_from_content b) as [m|e] eqn:Emf; [|discriminate].
    unfold sbind at 1, on_ts at 1 in H. unfold sbind at 1. cbn [fst snd] in H. destruct (t_decrypt P m s0) as [[m'|e] s1] eqn:Ed; [|discriminate].
    unfold sbind at 1 in H. destruct (m_node m') as [n|ct] eqn:Hn; [|discriminate].
    unfold sbind at 1, lift at 1 in H. destruct (packet_hash (pr_sha P) p) as [h|e]; [|discriminate].
    unfold on_graph in H. cbn [fst snd] in H. destruct (add_manifest orep h n (body_name p) g) as [[[]|e] g1]; [|discriminate].
    unfold sbind at 1, lift at 1 in H. unfold sbind at 1, lift at 1. destruct (update_nc_cache c m') as [c1|e] eqn:Eu; [|discriminate].
    destruct (man_hash_values m') as [items trail]. unfold sbind at 1 in H. unfold sbind at 1.
    destruct (gvisit_children P get (gpreorder P orep get wr f c1) c1 items (s1, g1)) as [[[]|e] [s2 g2]] eqn:Ev; [|discriminate].
    rewrite (gvisit_erase P get (preorder P get wr f c1) _ c1 (IH c1) items _ _ _ _ Ev). destruct trail; [discriminate|]. injection H as <- _. reflexivity.
  - destruct (ty =? PT_DATA) eqn:Edt; [|discriminate]. unfold sbind at 1, lift at 1 in H. destruct (packet_hash (pr_sha P) p) as [h|e]; [|discriminate].
    unfold sbind at 1, on_graph in H. cbn [fst snd] in H. destruct (add_data orep h (body_name p) g) as [[[]|e] g1]; [|discriminate].
    unfold on_ts in H. cbn [fst snd] in H. destruct (write_data P wr (co_payload b) s0) as [r s2]. injection H as -> <- _. reflexivity.
Qed.

(* ---------------- what a traversal draws ---------------- *)

Lemma last_such {A} (Q : A -> Prop) l : (forall x, Q x \/ ~ Q x) -> (exists x, In x l /\ Q x) ->
  exists pre x post, l = pre ++ x :: post /\ Q x /\ Forall (fun y => ~ Q y) post.
Proof.
  intros dec. induction l as [|y l IH]; intros (x & I & H); [destruct I|].
  assert ((exists x, In x l /\ Q x) \/ Forall (fun y => ~ Q y) l) as [C|F].
  { clear - dec. induction l as [|z l IH]; [right; constructor|]. destruct IH as [(x & I & H)|F]; [left; exists x; split; [now right|exact H]|].
    destruct (dec z) as [H|H]; [left; exists z; split; [now left|exact H]|right; constructor; assumption]. }
  - destruct (IH C) as (pre & z & post & -> & Hz & F). exists (y :: pre), z, post. auto.
  - destruct I as [->|I]; [exists [], x, l; auto|]. rewrite Forall_forall in F. destruct (F _ I H).
Qed.
Lemma hash_dec P k (x : packet * option node) : packet_hash (pr_sha P) (fst x) = Ok k \/ packet_hash (pr_sha P) (fst x) <> Ok k.
Proof.
  destruct (packet_hash (pr_sha P) (fst x)) as [h|e]; [|right; discriminate]. destruct (hashv_key_eqb h k) eqn:Q.
  - apply hashv_key_eqb_spec in Q. subst. auto.
  - right. intros [= ->]. rewrite (proj2 (hashv_key_eqb_spec k k) eq_refl) in Q. discriminate.
Qed.
Lemma recorded P orep es evs p n k : records P orep es evs -> described P orep evs -> In (p, n) evs -> packet_hash (pr_sha P) p = Ok k ->
  exists e, In (k, e) es.
Proof.
  intros (_ & R) Ds I E. destruct (last_such (fun x => packet_hash (pr_sha P) (fst x) = Ok k) evs (hash_dec P k)) as (pre & [q m] & post & -> & Hq & F).
  { exists (p, n). auto. }
  unfold described in Ds. rewrite Forall_forall in Ds. destruct (Ds (q, m)) as (h & e & D); [apply in_elt|]. cbn [fst snd] in *.
  assert (h = k) as -> by (destruct D as (D & _); congruence). exists e. apply R. exists pre, q, m, post. auto.
Qed.

Section Walked.
Variable get : option name -> option hashv -> res packet.
Variable valid : packet -> res unit.
Variable wr : bool.
Variable opens : packet -> node -> Prop.
Variable sealed : packet -> exn -> Prop.
Definition fetched (evs : list (packet * option node)) (n : node) : Prop :=
  exists items, node_iter (n_groups n) = (items, None) /\
    Forall (fun it => exists nm q m, get nm (Some (hi_hash it)) = Ok q /\ In (q, m) evs) items.
Lemma fetched_incl evs evs' n : incl evs evs' -> fetched evs n -> fetched evs' n.
Proof.
  intros I (items & E & F). exists items. split; [exact E|]. eapply Forall_impl; [|exact F]. cbv beta. intros it (nm & q & m & G & Hq).
  exists nm, q, m. auto.
Qed.
Lemma pt_event t : exists m, In (pt_packet t, m) (events t).
Proof. destruct t as [p n kids st]. exists n. now left. Qed.
Lemma walk_fetched :
  (forall D t, walk get valid wr opens sealed D t -> pt_stop t = None -> forall p n, In (p, Some n) (events t) -> fetched (events t) n) /\
  (forall D items trail kids stop, walks get valid wr opens sealed D items trail kids stop -> stop = None ->
     trail = None /\ Forall (fun it => exists nm q m, get nm (Some (hi_hash it)) = Ok q /\ In (q, m) (flat_map events kids)) items /\
     forall p n, In (p, Some n) (flat_map events kids) -> fetched (flat_map events kids) n).
Proof.
  apply walk_walks_ind; cbn [pt_stop events flat_map].
  - discriminate.
  - discriminate.
  - intros D p c _ _ _ _ q n [[=]|[]].
  - discriminate.
  - intros D p n kids stop _ _ _ IH E q m I. destruct (IH E) as (T & F & G). clear IH. destruct I as [[= <- <-]|I].
    + destruct (node_iter (n_groups n)) as [items trail] eqn:Ei. cbn [fst snd] in *. subst trail. exists items. split; [exact Ei|].
      eapply Forall_impl; [|exact F]. cbv beta. intros it (nm & q' & m & Gq & Hq). exists nm, q', m. split; [exact Gq|now right].
    + eapply fetched_incl; [|eapply G; exact I]. intros y Hy. now right.
  - intros D trail E. split; [exact E|]. split; [constructor|]. intros p n [].
  - discriminate.
  - discriminate.
  - discriminate.
  - intros D i items trail t kids stop T V W IHt St Ws IHw E. destruct (IHw E) as (Et & F & G). specialize (IHt St). split; [exact Et|]. split.
    + constructor.
      * unfold target in T. destruct (resolve (hi_nc i) D) as [d|]; [|discriminate]. destruct (nd_schema d) as [s|]; [|discriminate].
        apply bind_ok in T as (nm & _ & T). destruct (pt_event t) as (m & Hm). exists nm, (pt_packet t), m. split; [exact T|]. apply in_app_iff. now left.
      * eapply Forall_impl; [|exact F]. cbv beta. intros it (nm & q' & m & Gq & Hq). exists nm, q', m. split; [exact Gq|]. apply in_app_iff. now right.
    + intros p n I. apply in_app_iff in I as [I|I]; (eapply fetched_incl; [|eauto]); intros y Hy; apply in_app_iff; auto.
Qed.
End Walked.

(** * C70 *)

(* A traversal that builds a graph and succeeds does what it does without one,
   and records exactly the packets it visited: their kind, a label and the
   pointers. *)
Theorem C70_tree : forall P orep get wr ks fuel root h s' g,
  gtraverse P orep get wr fuel root h (tst_new P ks, graph_new) = (Ok tt, (s', g)) ->
  traverse P get wr fuel root h (tst_new P ks) = (Ok tt, s') /\
  exists t, get root h = Ok (pt_packet t) /\
    walk get (validate_packet P ks) wr (readable P) (fun p _ => encrypted p) [] t /\ shows wr t (Ok tt, s') /\
    described P orep (events t) /\ records P orep (gr_entries g) (events t).
Proof.
  intros P orep get wr ks fuel root h s' g H. split.
  { unfold gtraverse in H. unfold traverse. unfold sbind at 1, lift in H. unfold sbind at 1, lift. destruct (get root h) as [p|e]; [|discriminate].
    unfold sbind at 1, on_ts in H. unfold sbind at 1. cbn [fst snd] in H. destruct (validate P p (tst_new P ks)) as [[[]|e] s1]; [|discriminate].
    eapply gpreorder_erase. exact H. }
  unfold gtraverse in H. unfold sbind at 1, lift in H. destruct (get root h) as [p|e]; [|discriminate].
  assert (ts_keystore P (tst_new P ks) = ks) as Ek by (destruct ks; reflexivity).
  unfold sbind at 1, on_ts, validate, sbind at 1, sget, lift in H. cbn [fst snd] in H. rewrite Ek in H.
  destruct (validate_packet P ks p) as [[]|e]; [|discriminate].
  destruct (gpreorder_sound P orep get wr ks fuel [] [] cache_of_nil (Forall_nil _) _ _ _ H) as (t & W & <- & Es & (A & _ & Ds & R)).
  { cbn [fst]. rewrite Ek. reflexivity. } { reflexivity. }
  exists t. split; [reflexivity|]. split; [exact W|]. split; [|split; [exact Ds|]].
  - destruct A as (A1 & A2 & _). rewrite events_visited in *. cbn [fst] in *. unfold shows. cbn [fst snd]. rewrite Es. auto.
  - apply (R []). apply records_nil.
Qed.

(* If the reader answers with packets of the hash asked for, every pointer in
   the graph leads to an entry. *)
Theorem C70_closed : forall P orep get wr ks fuel root h s' g,
  (forall nm k q, get nm (Some k) = Ok q -> packet_hash (pr_sha P) q = Ok k) ->
  gtraverse P orep get wr fuel root h (tst_new P ks, graph_new) = (Ok tt, (s', g)) ->
  forall a e k, In (a, e) (gr_entries g) -> In k (ge_kids e) -> exists e', In (k, e') (gr_entries g).
Proof.
  intros P orep get wr ks fuel root h s' g Hon H a e k Ha Hk. apply C70_tree in H as (_ & t & _ & W & (Es & _) & Ds & R).
  assert (pt_stop t = None) as St by (cbn [fst] in Es; destruct (pt_stop t); [discriminate|reflexivity]).
  pose proof R as (_ & R'). apply R' in Ha as (pre & p & n & post & Ev & (_ & _ & _ & D) & _).
  destruct n as [n|]; [|destruct D as (_ & D); rewrite D in Hk; destruct Hk]. destruct D as (_ & D).
  destruct (proj1 (walk_fetched get (validate_packet P ks) wr (readable P) (fun p _ => encrypted p)) [] t W St p n) as (items & Ei & F).
  { rewrite Ev. apply in_elt. }
  apply node_hash_iter in Ei as (_ & Ei). rewrite D, Ei in Hk. apply in_map_iff in Hk as (it & <- & Hit).
  rewrite Forall_forall in F. destruct (F it Hit) as (nm & q & m & Gq & Iq). eapply recorded; [exact R|exact Ds|exact Iq|]. eapply Hon. exact Gq.
Qed.

(* A traversal that succeeds also succeeds with a graph, with the same output,
   when the packets have names that can be written as labels. *)
Theorem C70_same : forall P orep get wr ks fuel root h s',
  (forall nm k p, get nm k = Ok p -> labelled P orep p) ->
  traverse P get wr fuel root h (tst_new P ks) = (Ok tt, s') ->
  exists g, gtraverse P orep get wr fuel root h (tst_new P ks, graph_new) = (Ok tt, (s', g)).
Proof.
  intros P orep get wr ks fuel root h s' HL H. unfold traverse in H. unfold gtraverse. unfold sbind at 1, lift in H. unfold sbind at 1, lift.
  destruct (get root h) as [p|e] eqn:Eg; [|discriminate]. unfold sbind at 1 in H. unfold sbind at 1, on_ts. cbn [fst snd].
  destruct (validate P p (tst_new P ks)) as [[[]|e] s1]; [|discriminate].
  eapply gpreorder_follows; [exact HL|eapply HL; exact Eg|exact H].
Qed.

(* ---------------- drawing ---------------- *)

Definition short : hashv -> text := hash_to_name.
Arguments short : simpl never.
Arguments hash_to_name : simpl never.
(* e is the last of the entries whose short name is x *)
Definition last_entry (es : list gentry) (x : text) (e : gentry) : Prop :=
  exists pre post, es = pre ++ e :: post /\ short (ge_parent e) = x /\ Forall (fun y => short (ge_parent y) <> x) post.
Definition points (es : list gentry) (a b : text) : Prop :=
  exists e k, In e es /\ In k (ge_kids e) /\ a = short (ge_parent e) /\ b = short k.

(* the nodes of a drawing: one for each short name; labelled if an entry has
   the name *)
Definition nodes_drawn (es : list gentry) (ns : list (text * option (bool * text))) : Prop :=
  NoDup (map fst ns) /\
  (forall x c l, In (x, Some (c, l)) ns <-> exists e, last_entry es x e /\ c = ge_data e /\ l = ge_label e) /\
  (forall x, In (x, None) ns <-> (exists a, points es a x) /\ forall e, In e es -> short (ge_parent e) <> x).
Definition edges_drawn (es : list gentry) (l : list (text * text)) : Prop :=
  NoDup l /\ forall a b, In (a, b) l <-> points es a b.

Lemma beqb_neq a b : beqb a b = false -> a <> b.
Proof. intros H ->. rewrite (proj2 (beqb_spec b b) eq_refl) in H. discriminate. Qed.
Lemma tdict_in {V} (d : list (text * V)) k v : NoDup (map fst d) ->
  NoDup (map fst (odict_set beqb k v d)) /\
  forall k' v', In (k', v') (odict_set beqb k v d) <-> (k' = k /\ v' = v) \/ (k' <> k /\ In (k', v') d).
Proof.
  induction d as [|[k0 v0] d IH]; intros N.
  - cbn. split; [repeat constructor; tauto|]. intros k' v'. split; [intros [[= <- <-]|[]]; auto|]. intros [(-> & ->)|(_ & [])]. auto.
  - cbn [odict_set]. pose proof N as N0. cbn [map fst] in N0. apply NoDup_cons_iff in N0 as (N1 & N2). destruct (beqb k k0) eqn:E.
    + apply beqb_spec in E. subst k0. split; [exact N|]. intros k' v'. cbn [In]. split.
      * intros [[= <- <-]|H]; [auto|]. right. split; [|auto]. intros ->. apply N1. apply in_map_iff. exists (k, v'). split; [reflexivity|exact H].
      * intros [(-> & ->)|(Ne & [[= <- <-]|H])]; auto. congruence.
    + destruct (IH N2) as (A & B). apply beqb_neq in E. split.
      * constructor; [|exact A]. intros H. apply in_map_iff in H as ([k1 v1] & E1 & H). cbn [fst] in E1. subst k1. apply B in H as [(-> & _)|(_ & H)]; [congruence|].
        apply N1. apply in_map_iff. exists (k0, v1). auto.
      * intros k' v'. cbn [In]. rewrite B. split.
        -- intros [[= <- <-]|[H|H]]; [right; split; [congruence|auto]|auto|]. right. tauto.
        -- intros [H|(H1 & [[= <- <-]|H2])]; auto.
Qed.
Lemma tdict_get {V} (d : list (text * V)) k :
  match odict_get beqb k d with Some v => In (k, v) d | None => forall v, ~ In (k, v) d end.
Proof.
  unfold odict_get. destruct (find (fun x => beqb k (fst x)) d) as [[k' v]|] eqn:E; cbn [option_map snd].
  - apply find_some in E as (I & E). cbn [fst] in E. apply beqb_spec in E. now subst k'.
  - intros v I. eapply find_none in E; [|exact I]. cbn [fst] in E. now apply beqb_neq in E.
Qed.
Lemma tdict_fun {V} (d : list (text * V)) k v v' : NoDup (map fst d) -> In (k, v) d -> In (k, v') d -> v = v'.
Proof.
  induction d as [|[k0 v0] d IH]; intros N I J; [destruct I|]. cbn [map fst] in N. apply NoDup_cons_iff in N as (N1 & N2).
  assert (forall v, In (k, v) d -> k <> k0) as Hne. { intros w Hw ->. apply N1. apply in_map_iff. exists (k0, w). auto. }
  destruct I as [I|I], J as [J|J]; [congruence| | |eauto]; [injection I as <- <-; destruct (Hne _ J eq_refl)|injection J as <- <-; destruct (Hne _ I eq_refl)].
Qed.
Lemma touch_in ns x : NoDup (map fst ns) ->
  NoDup (map fst (touch_node x ns)) /\
  forall y a, In (y, a) (touch_node x ns) <-> In (y, a) ns \/ (y = x /\ a = None /\ forall b, ~ In (x, b) ns).
Proof.
  intros N. unfold touch_node. pose proof (tdict_get ns x) as G. destruct (odict_get beqb x ns) as [v|].
  - split; [exact N|]. intros y a. split; [auto|]. intros [H|(_ & _ & H)]; [exact H|]. destruct (H _ G).
  - destruct (tdict_in ns x None N) as (A & B). split; [exact A|]. intros y a. rewrite B. split.
    + intros [(-> & ->)|(Ne & H)]; auto.
    + intros [H|(-> & -> & _)]; [|auto]. right. split; [|exact H]. intros ->. destruct (G _ H).
Qed.

Lemma NoDup_app_snoc {A} (l : list A) x : NoDup l -> ~ In x l -> NoDup (l ++ [x]).
Proof. intros H N. apply NoDup_rev in H. rewrite <- (rev_involutive (l ++ [x])), rev_app_distr. apply NoDup_rev. cbn. constructor; [now rewrite <- in_rev|exact H]. Qed.
Lemma last_entry_snoc es e x e' : last_entry (es ++ [e]) x e' <->
  (short (ge_parent e) = x /\ e' = e) \/ (short (ge_parent e) <> x /\ last_entry es x e').
Proof.
  split.
  - intros (pre & post & E & Hs & F). destruct (destruct_last post) as [->|(post' & y & ->)].
    + apply app_inj_tail in E as (-> & ->). auto.
    + rewrite app_comm_cons, app_assoc in E. apply app_inj_tail in E as (-> & ->). apply Forall_app in F as (F1 & F2). inversion F2; subst.
      right. split; [assumption|]. exists pre, post'. auto.
  - intros [(H & ->)|(H & (pre & post & -> & Hs & F))].
    + exists es, []. auto.
    + exists pre, (post ++ [e]). rewrite <- app_assoc. split; [reflexivity|]. split; [exact Hs|]. apply Forall_app. auto.
Qed.
Lemma last_entry_in es x e : last_entry es x e -> In e es /\ short (ge_parent e) = x.
Proof. intros (pre & post & -> & H & _). split; [apply in_elt|exact H]. Qed.

(* one more entry, with some of its pointers drawn *)
Definition with_kids (e : gentry) (ks : list hashv) : gentry := mkEntry (ge_data e) (ge_parent e) (ge_label e) ks.
Lemma points_snoc es e ks a b : points (es ++ [with_kids e ks]) a b <-> points es a b \/ (a = short (ge_parent e) /\ exists k, In k ks /\ b = short k).
Proof.
  split.
  - intros (e' & k & I & Ik & -> & ->). apply in_app_iff in I as [I|[<-|[]]]; [left; exists e', k; auto|right; cbn; eauto].
  - intros [(e' & k & I & Ik & -> & ->)|(-> & k & Ik & ->)]; [exists e', k|exists (with_kids e ks), k]; rewrite in_app_iff; cbn; auto.
Qed.
Lemma draw_edge_ok es e ks k d : let a := short (ge_parent e) in
  nodes_drawn (es ++ [with_kids e ks]) (dr_nodes d) -> edges_drawn (es ++ [with_kids e ks]) (dr_edges d) ->
  nodes_drawn (es ++ [with_kids e (ks ++ [k])]) (dr_nodes (draw_edge a (short k) d)) /\
  edges_drawn (es ++ [with_kids e (ks ++ [k])]) (dr_edges (draw_edge a (short k) d)).
Proof.
  intros a (N & Hl & Hn) (Ne & He). split.
  - unfold draw_edge. cbn [dr_nodes]. destruct (touch_in (dr_nodes d) a N) as (N1 & T1).
    assert (exists v, In (a, v) (dr_nodes d)) as (va & Ia).
    { exists (Some (ge_data e, ge_label e)). apply Hl. exists (with_kids e ks). split; [|cbn; auto]. apply last_entry_snoc. left. cbn. auto. }
    assert (forall y v, In (y, v) (touch_node a (dr_nodes d)) <-> In (y, v) (dr_nodes d)) as T1'.
    { intros y v. rewrite T1. split; [|auto]. intros [H|(_ & _ & H)]; [exact H|destruct (H _ Ia)]. }
    destruct (touch_in (touch_node a (dr_nodes d)) (short k) N1) as (N2 & T2). split; [exact N2|]. split.
    + intros x c l. rewrite T2, T1', Hl. split.
      * intros [(e' & L & -> & ->)|(_ & [=] & _)]. apply last_entry_snoc in L. destruct L as [(L & ->)|L].
        -- exists (with_kids e (ks ++ [k])). split; [|cbn; auto]. apply last_entry_snoc. left. cbn in *. auto.
        -- exists e'. split; [|auto]. apply last_entry_snoc. right. cbn in *. exact L.
      * intros (e' & L & -> & ->). left. apply last_entry_snoc in L. destruct L as [(L & ->)|L].
        -- exists (with_kids e ks). split; [|cbn; auto]. apply last_entry_snoc. left. cbn in *. auto.
        -- exists e'. split; [|auto]. apply last_entry_snoc. right. cbn in *. exact L.
    + intros x. rewrite T2, T1', Hn. setoid_rewrite points_snoc. split.
      * intros [((b & Hp) & F)|(-> & _ & F)].
        -- split.
           ++ exists b. destruct Hp as [Hp|(-> & k' & Ik & ->)]; [auto|]. right. split; [reflexivity|]. exists k'. rewrite in_app_iff. auto.
           ++ intros e' I. apply in_app_iff in I as [I|[<-|[]]]; [apply F; apply in_app_iff; auto|].
              apply (F (with_kids e ks)). apply in_app_iff. cbn. auto.
        -- split; [exists a; right; split; [reflexivity|]; exists k; rewrite in_app_iff; cbn; auto|].
           intros e' I Es. destruct (last_such (fun y => short (ge_parent y) = short k) (es ++ [with_kids e ks])) as (pre & y & post & E & Hy & Fy).
           { intros y. destruct (beqb (short (ge_parent y)) (short k)) eqn:Q; [left; now apply beqb_spec|right; now apply beqb_neq]. }
           { apply in_app_iff in I as [I|[<-|[]]]; [exists e'|exists (with_kids e ks)]; rewrite in_app_iff; cbn; auto. }
           apply (F (Some (ge_data y, ge_label y))). apply T1'. apply Hl. exists y. split; [|auto]. exists pre, post. auto.
      * intros ((b & Hp) & F).
        assert (forall e', In e' (es ++ [with_kids e ks]) -> short (ge_parent e') <> x) as F'.
        { intros e' I. apply in_app_iff in I as [I|[<-|[]]]; [apply F; apply in_app_iff; auto|].
          apply (F (with_kids e (ks ++ [k]))). apply in_app_iff. cbn. auto. }
        destruct (beqb x (short k)) eqn:Q.
        -- apply beqb_spec in Q. subst x. pose proof (tdict_get (dr_nodes d) (short k)) as G. destruct (odict_get beqb (short k) (dr_nodes d)) as [[[c l]|]|].
           ++ apply Hl in G as (e' & L & _). apply last_entry_in in L as (I & L). destruct (F' _ I L).
           ++ left. apply Hn in G as ((b' & G) & G'). split; [|exact G']. exists b'. now apply points_snoc.
           ++ right. split; [reflexivity|]. split; [reflexivity|]. intros v Hv. apply T1' in Hv. destruct (G _ Hv).
        -- apply beqb_neq in Q. left. split; [|exact F']. exists b. destruct Hp as [Hp|(-> & k' & Ik & ->)]; [auto|].
           right. split; [reflexivity|]. exists k'. apply in_app_iff in Ik as [Ik|[->|[]]]; [auto|congruence].
  - unfold draw_edge. cbn [dr_edges]. destruct (existsb (edge_eqb (a, short k)) (dr_edges d)) eqn:Ex.
    + split; [exact Ne|]. intros x y. rewrite He. setoid_rewrite points_snoc. split.
      * intros [H|(-> & k' & Ik & ->)]; [auto|]. right. split; [reflexivity|]. exists k'. rewrite in_app_iff. auto.
      * intros [H|(-> & k' & Ik & ->)]; [auto|]. apply in_app_iff in Ik as [Ik|[->|[]]]; [right; eauto|].
        apply points_snoc. apply He. apply existsb_exists in Ex as ([u v] & I & Q). unfold edge_eqb in Q. cbn [fst snd] in Q. apply andb_prop in Q as (Q1 & Q2).
        apply beqb_spec in Q1, Q2. subst. exact I.
    + assert (~ In (a, short k) (dr_edges d)) as Ni.
      { intros I. assert (existsb (edge_eqb (a, short k)) (dr_edges d) = true) as Q; [|congruence]. apply existsb_exists. exists (a, short k). split; [exact I|].
        unfold edge_eqb. cbn [fst snd]. rewrite (proj2 (beqb_spec a a) eq_refl), (proj2 (beqb_spec (short k) (short k)) eq_refl). reflexivity. }
      split.
      * apply NoDup_app_snoc; assumption.
      * intros x y. rewrite in_app_iff, He. setoid_rewrite points_snoc. split.
        -- intros [[H|(-> & k' & Ik & ->)]|[[= <- <-]|[]]]; [auto| |].
           ++ right. split; [reflexivity|]. exists k'. rewrite in_app_iff. auto.
           ++ right. split; [reflexivity|]. exists k. rewrite in_app_iff. cbn. auto.
        -- intros [H|(-> & k' & Ik & ->)]; [auto|]. apply in_app_iff in Ik as [Ik|[->|[]]]; [left; right; eauto|right; left; reflexivity].
Qed.
Lemma draw_entry_ok es e d : nodes_drawn es (dr_nodes d) -> edges_drawn es (dr_edges d) ->
  nodes_drawn (es ++ [e]) (dr_nodes (draw_entry d e)) /\ edges_drawn (es ++ [e]) (dr_edges (draw_entry d e)).
Proof.
  intros (N & Hl & Hn) (Ne & He). unfold draw_entry.
  assert (G : forall ks ks0 d0, nodes_drawn (es ++ [with_kids e ks0]) (dr_nodes d0) -> edges_drawn (es ++ [with_kids e ks0]) (dr_edges d0) ->
    let d1 := fold_left (fun d h => draw_edge (hash_to_name (ge_parent e)) (hash_to_name h) d) ks d0 in
    nodes_drawn (es ++ [with_kids e (ks0 ++ ks)]) (dr_nodes d1) /\ edges_drawn (es ++ [with_kids e (ks0 ++ ks)]) (dr_edges d1)).
  { induction ks as [|k ks IH]; intros ks0 d0 A B; cbn [fold_left]; [rewrite app_nil_r; auto|].
    destruct (draw_edge_ok es e ks0 k d0 A B) as (A' & B'). specialize (IH _ _ A' B'). rewrite <- app_assoc in IH. exact IH. }
  specialize (G (ge_kids e) [] (draw_node (hash_to_name (ge_parent e)) (ge_data e) (ge_label e) d)). cbn [app] in G.
  replace (with_kids e (ge_kids e)) with e in G by now destruct e. apply G.
  - unfold draw_node. cbn [dr_nodes]. destruct (tdict_in (dr_nodes d) (hash_to_name (ge_parent e)) (Some (ge_data e, ge_label e)) N) as (N' & T).
    split; [exact N'|]. split.
    + intros x c l. rewrite T. setoid_rewrite last_entry_snoc. rewrite Hl. unfold with_kids at 1. cbn [ge_parent]. split.
      * intros [(-> & [= -> ->])|(H & (e' & L & -> & ->))]; [exists (with_kids e []); cbn; auto|]. exists e'. split; [|auto]. right. split; [|exact L]. cbn.
        unfold short. congruence.
      * intros (e' & [(L & ->)|(H & L)] & -> & ->); [left; cbn; unfold short in *; subst; auto|]. right. unfold short in *. cbn in H. split; [congruence|]. eauto.
    + intros x. rewrite T, Hn. setoid_rewrite points_snoc. split.
      * intros [(_ & [=])|(H & (a & Hp) & F)]. split; [eauto|]. intros e' I. apply in_app_iff in I as [I|[<-|[]]]; [auto|]. cbn. unfold short. congruence.
      * intros ((a & [Hp|(_ & k & [] & _)]) & F). right. split; [|split; [eauto|]].
        -- intros ->. apply (F (with_kids e [])); [apply in_app_iff; cbn; auto|reflexivity].
        -- intros e' I. apply F. apply in_app_iff. auto.
  - split; [exact Ne|]. intros a b. cbn [draw_node dr_edges]. rewrite He, points_snoc. split; [auto|]. intros [H|(_ & k & [] & _)]. exact H.
Qed.
Lemma create_graph_ok es : nodes_drawn (map snd es) (dr_nodes (create_graph es)) /\ edges_drawn (map snd es) (dr_edges (create_graph es)).
Proof.
  unfold create_graph.
  assert (G : forall l es0 d, nodes_drawn es0 (dr_nodes d) -> edges_drawn es0 (dr_edges d) ->
    nodes_drawn (es0 ++ l) (dr_nodes (fold_left draw_entry l d)) /\ edges_drawn (es0 ++ l) (dr_edges (fold_left draw_entry l d))).
  { induction l as [|e l IH]; intros es0 d A B; cbn [fold_left]; [rewrite app_nil_r; auto|].
    destruct (draw_entry_ok es0 e d A B) as (A' & B'). specialize (IH _ _ A' B'). rewrite <- app_assoc in IH. exact IH. }
  apply (G (map snd es) []).
  - split; [constructor|]. split.
    + intros x c l. split; [intros []|]. intros (e & L & _). apply last_entry_in in L as ([] & _).
    + intros x. split; [intros []|]. intros ((a & e & k & [] & _) & _).
  - split; [constructor|]. intros a b. split; [intros []|]. intros (e & k & [] & _).
Qed.

(* ---------------- any use of a graph ---------------- *)

Inductive gop := OpManifest (h : hashv) (n : node) (nm : option name) | OpData (h : hashv) (nm : option name) | OpPause | OpResume | OpDraw.
Definition op_run (orep : comp -> text) (g : graph) (o : gop) : graph :=
  match o with
  | OpManifest h n nm => snd (add_manifest orep h n nm g)
  | OpData h nm => snd (add_data orep h nm g)
  | OpPause => graph_pause g
  | OpResume => graph_resume g
  | OpDraw => snd (graph_drawing g)
  end.
(* the records asked for while the graph was not paused, oldest first; None
   where a call failed *)
Definition op_record (orep : comp -> text) (o : gop) : list (option (hashv * gentry)) :=
  match o with
  | OpManifest h n nm =>
    [match label_from_name orep h nm with
     | Ok l => if forallb (fun g => match hg_ptrs g with Some _ => true | None => false end) (n_groups n)
               then Some (h, mkEntry false h l (node_ptrs n)) else None
     | Err _ => None end]
  | OpData h nm => [match label_from_name orep h nm with Ok l => Some (h, mkEntry true h l []) | Err _ => None end]
  | _ => []
  end.
Fixpoint asked (orep : comp -> text) (paused : bool) (ops : list gop) : list (option (hashv * gentry)) :=
  match ops with
  | [] => []
  | OpPause :: r => asked orep true r
  | OpResume :: r => asked orep false r
  | o :: r => (if paused then [] else op_record orep o) ++ asked orep paused r
  end.
Definition current (g : graph) : Prop := forall d, gr_graph g = Some d -> d = create_graph (gr_entries g).
(* a record is kept until the next for the same hash *)
Definition keeps_last (es : list (hashv * gentry)) (l : list (option (hashv * gentry))) : Prop :=
  NoDup (map fst es) /\
  forall h e, In (h, e) es <-> exists pre post, l = pre ++ Some (h, e) :: post /\ forall e', ~ In (Some (h, e')) post.

Lemma node_hash_values_spec n : node_hash_values n =
  if forallb (fun g => match hg_ptrs g with Some _ => true | None => false end) (n_groups n) then Ok (node_ptrs n) else Err TypeError.
Proof.
  unfold node_hash_values, node_ptrs. induction (n_groups n) as [|g gs IH]; [reflexivity|]. cbn [mapM forallb flat_map].
  destruct (hg_ptrs g) as [l|]; [|reflexivity]. cbn [bind andb].
  destruct (mapM _ gs) as [r|e]; cbn [bind concat] in *; destruct (forallb _ gs); try discriminate; [apply Ok_inj in IH; now rewrite IH|exact IH].
Qed.
Lemma add_current orep b h ks nm g : current g -> current (snd (add_entry orep b h ks nm g)).
Proof.
  intros H. unfold add_entry. destruct (gr_paused g); [exact H|]. destruct (_ <- ks ;; _); cbn [snd]; intros d [=].
Qed.
Lemma draw_current g : current g -> fst (graph_drawing g) = create_graph (gr_entries g) /\ current (snd (graph_drawing g)).
Proof.
  intros H. unfold graph_drawing. destruct (gr_graph g) as [d|] eqn:E; cbn [fst snd]; [split; [now apply H|exact H]|].
  split; [reflexivity|]. intros d [= <-]. reflexivity.
Qed.
Lemma ops_current orep ops : forall g, current g -> current (fold_left (op_run orep) ops g).
Proof.
  induction ops as [|o ops IH]; intros g H; [exact H|]. cbn [fold_left]. apply IH.
  destruct o; cbn [op_run]; unfold add_manifest, add_data; try now apply add_current.
  - exact H.
  - exact H.
  - now apply draw_current.
Qed.
Lemma keeps_set es l h e : keeps_last es l -> keeps_last (odict_set hashv_key_eqb h e es) (l ++ [Some (h, e)]).
Proof.
  intros (N & K). destruct (odict_in es h e N) as (N' & T). split; [exact N'|]. intros h' e'. rewrite T, K. split.
  - intros [(-> & ->)|(Ne & (pre & post & -> & F))]; [exists l, []; split; [reflexivity|intros ? []]|].
    exists pre, (post ++ [Some (h, e)]). rewrite <- app_assoc. split; [reflexivity|]. intros e0 I. apply in_app_iff in I as [I|[[= <- <-]|[]]]; [eapply F; eauto|auto].
  - intros (pre & post & E & F). destruct (destruct_last post) as [->|(post' & y & ->)].
    + apply app_inj_tail in E as (_ & [= <- <-]). auto.
    + rewrite app_comm_cons, app_assoc in E. apply app_inj_tail in E as (-> & <-). right. split.
      * intros ->. apply (F e). apply in_app_iff. cbn. auto.
      * exists pre, post'. split; [reflexivity|]. intros e0 I. apply (F e0). apply in_app_iff. auto.
Qed.
Lemma keeps_none es l : keeps_last es l -> keeps_last es (l ++ [None]).
Proof.
  intros (N & K). split; [exact N|]. intros h' e'. rewrite K. split.
  - intros (pre & post & -> & F). exists pre, (post ++ [None]). rewrite <- app_assoc. split; [reflexivity|]. intros e0 I.
    apply in_app_iff in I as [I|[[=]|[]]]. eapply F; eauto.
  - intros (pre & post & E & F). destruct (destruct_last post) as [->|(post' & y & ->)]; [apply app_inj_tail in E as (_ & [=])|].
    rewrite app_comm_cons, app_assoc in E. apply app_inj_tail in E as (-> & <-). exists pre, post'. split; [reflexivity|]. intros e0 I. apply (F e0). apply in_app_iff. auto.
Qed.
Lemma ops_keep orep ops : forall g l, keeps_last (gr_entries g) l ->
  keeps_last (gr_entries (fold_left (op_run orep) ops g)) (l ++ asked orep (gr_paused g) ops).
Proof.
  induction ops as [|o ops IH]; intros g l K; [cbn [fold_left asked]; now rewrite app_nil_r|]. cbn [fold_left].
  destruct o as [h n nm|h nm| | |]; cbn [asked op_run].
  - destruct (gr_paused g) eqn:Ep; [unfold add_manifest, add_entry; rewrite Ep; cbn [snd app]; rewrite <- Ep; now apply IH|].
    unfold add_manifest, add_entry. rewrite Ep. rewrite node_hash_values_spec. cbn [op_record]. rewrite app_assoc.
    destruct (forallb _ (n_groups n)); cbn [bind]; [destruct (label_from_name orep h nm) as [t|]; cbn [bind snd]|destruct (label_from_name orep h nm) as [t|]; cbn [snd]].
    + apply (IH (mkGraph _ None false)). now apply keeps_set.
    + apply (IH (mkGraph _ None false)). now apply keeps_none.
    + apply (IH (mkGraph _ None false)). now apply keeps_none.
    + apply (IH (mkGraph _ None false)). now apply keeps_none.
  - destruct (gr_paused g) eqn:Ep; [unfold add_data, add_entry; rewrite Ep; cbn [snd app]; rewrite <- Ep; now apply IH|].
    unfold add_data, add_entry. rewrite Ep. cbn [bind op_record]. rewrite app_assoc. destruct (label_from_name orep h nm) as [t|]; cbn [bind snd].
    + apply (IH (mkGraph _ None false)). now apply keeps_set.
    + apply (IH (mkGraph _ None false)). now apply keeps_none.
  - now apply (IH (graph_pause g)).
  - now apply (IH (graph_resume g)).
  - replace ((if gr_paused g then [] else op_record orep OpDraw) ++ asked orep (gr_paused g) ops) with (asked orep (gr_paused g) ops) by now destruct (gr_paused g).
    unfold graph_drawing. destruct (gr_graph g); cbn [snd]; [now apply IH|]. now apply (IH (mkGraph _ _ (gr_paused g))).
Qed.

(* The name of a node is "0x" and the hexadecimal digits of the first three
   bytes of the hash, although the code means four. *)
Definition digits16 : text := [48; 49; 50; 51; 52; 53; 54; 55; 56; 57; 97; 98; 99; 100; 101; 102].
Definition hex_of (b : Z) : text := [nth (Z.to_nat (b / 16)) digits16 0; nth (Z.to_nat (b mod 16)) digits16 0].
Lemma short_is h : short h = 48 :: 120 :: hex (firstn 3 (h_val h)).
Proof.
  unfold short, hash_to_name. generalize (h_val h). intros v.
  destruct v as [|a [|b [|c v]]]; reflexivity.
Qed.
Lemma hex_digit_is d : 0 <= d < 16 -> hex_digit d = nth (Z.to_nat d) digits16 0.
Proof.
  intros H. assert (forallb (fun d => hex_digit (Z.of_nat d) =? nth d digits16 0) (seq 0 16) = true) as T by reflexivity.
  rewrite forallb_forall in T. specialize (T (Z.to_nat d)). rewrite Z2Nat.id in T by lia. apply Z.eqb_eq, T, in_seq. lia.
Qed.
Theorem C70_short : forall h, all_bytes (h_val h) -> short h = [48; 120] ++ flat_map hex_of (firstn 3 (h_val h)).
Proof.
  intros h B. rewrite short_is. cbn [app]. do 2 f_equal.
  assert (forall b, 0 <= b < 256 -> [hex_digit (b / 16); hex_digit (b mod 16)] = hex_of b) as D.
  { intros b Hb. unfold hex_of. rewrite !hex_digit_is; [reflexivity| |]; Z.to_euclidean_division_equations; lia. }
  unfold hex. unfold all_bytes in B. revert B. generalize (h_val h). intros v B.
  destruct v as [|a [|b [|c v]]]; cbn [firstn flat_map]; rewrite ?D; try reflexivity; apply B; cbn; auto.
Qed.
Print Assumptions C70_short.

(* t is n in decimal: digits only, no leading zero, and the right value *)
Definition decimal (n : Z) (t : text) : Prop :=
  Forall (fun c => 48 <= c <= 57) t /\ t <> [] /\ (hd 0 t = 48 -> t = [48]) /\
  fold_left (fun a c => 10 * a + (c - 48)) t 0 = n.
Lemma dec_fuel_ok f : forall n acc, 0 <= n < 2 ^ Z.of_nat f -> (0 < f)%nat ->
  exists t, dec_fuel f n acc = t ++ acc /\ decimal n t.
Proof.
  induction f as [|f IH]; intros n acc Hn Hf; [lia|]. cbn [dec_fuel].
  destruct (n <? 10) eqn:L.
  - exists [48 + n mod 10]. split; [reflexivity|]. rewrite Z.mod_small by lia. split; [repeat constructor; lia|]. split; [discriminate|]. split.
    + cbn [hd]. intros E. rewrite E. reflexivity.
    + cbn [fold_left]. lia.
  - destruct f as [|f]. { change (2 ^ Z.of_nat 1) with 2 in Hn. lia. }
    assert (0 <= n / 10 < 2 ^ Z.of_nat (S f)) as Hd.
    { split; [apply Z.div_pos; lia|]. apply Z.div_lt_upper_bound; [lia|]. rewrite Nat2Z.inj_succ, Z.pow_succ_r in Hn by lia. lia. }
    destruct (IH (n / 10) (48 + n mod 10 :: acc) Hd ltac:(lia)) as (t & E & D & N & Z0 & V).
    pose proof (Z.mod_pos_bound n 10 ltac:(lia)) as M.
    exists (t ++ [48 + n mod 10]). split; [rewrite E, <- app_assoc; reflexivity|]. split; [apply Forall_app; split; [exact D|repeat constructor; lia]|].
    split; [intros X; apply app_eq_nil in X as [_ X]; discriminate|]. split.
    + destruct t as [|c t]; [contradiction|]. cbn [app hd] in *. intros X. specialize (Z0 X). injection Z0 as -> ->. cbn [fold_left] in V.
      assert (1 <= n / 10) by (apply Z.div_le_lower_bound; lia). lia.
    + rewrite fold_left_app, V. cbn [fold_left]. pose proof (Z.div_mod n 10 ltac:(lia)). lia.
Qed.
Lemma dec_ok n : 0 <= n -> decimal n (dec n).
Proof.
  intros H. unfold dec. destruct (dec_fuel_ok (S (Z.to_nat (Z.log2 n))) n []) as (t & E & D).
  - split; [exact H|]. rewrite Nat2Z.inj_succ, Z2Nat.id by apply Z.log2_nonneg. destruct (Z.eq_dec n 0) as [->|]; [reflexivity|].
    apply Z.log2_spec. lia.
  - lia.
  - rewrite E, app_nil_r. exact D.
Qed.
(* The label: the last number of the name, in decimal, if the name ends with a
   manifest id or a chunk id, otherwise its URI; without a name that of the
   node, and an empty name has none. *)
Theorem C70_label : forall orep h,
  label_from_name orep h None = Ok (short h) /\
  label_from_name orep h (Some []) = Err AssertionError /\
  (forall n c, c_type c = 16 \/ c_type c = 5 -> all_bytes (c_val c) ->
    exists t, label_from_name orep h (Some (n ++ [c])) = Ok t /\ decimal (fold_left (fun a b => 256 * a + b) (c_val c) 0) t) /\
  (forall n c, c_type c <> 16 -> c_type c <> 5 -> label_from_name orep h (Some (n ++ [c])) = as_uri orep (n ++ [c])).
Proof.
  intros orep h. split; [reflexivity|]. split; [reflexivity|]. split.
  - intros n c T B. unfold label_from_name. rewrite rev_app_distr. cbn [rev app].
    replace ((c_type c =? T_MANIFESTID) || (c_type c =? T_CHUNKID)) with true by (unfold T_MANIFESTID, T_CHUNKID; lia).
    exists (dec (array_to_number (c_val c))). split; [reflexivity|].
    assert (bytes_ok (c_val c)) as Bk by (apply Forall_forall; intros x X; specialize (B x X); unfold is_byte; lia).
    replace (fold_left (fun a b => 256 * a + b) (c_val c) 0) with (array_to_number (c_val c)).
    + apply dec_ok, array_to_number_bound, Bk.
    + rewrite array_to_number_be by exact Bk. unfold be_acc. generalize 0. induction (c_val c) as [|x v IH]; intros z; [reflexivity|]. cbn [fold_left].
      rewrite <- IH; [f_equal; lia|intros y Y; apply B; right; exact Y|now inversion Bk].
  - intros n c A B. unfold label_from_name. rewrite rev_app_distr. cbn [rev app].
    replace ((c_type c =? T_MANIFESTID) || (c_type c =? T_CHUNKID)) with false by (unfold T_MANIFESTID, T_CHUNKID; lia). reflexivity.
Qed.
Print Assumptions C70_label.
Example C70_label_ex : label_from_name (fun _ => []) (mkHash 1 [171; 205; 1; 2]) (Some [mkComp 1 KBytes [97]; mkComp 5 KArray [1; 2]]) = Ok [50; 53; 56] /\
  short (mkHash 1 [171; 205; 1; 2]) = [48; 120; 97; 98; 99; 100; 48; 49].
Proof. vm_compute. auto. Qed.

(* However the graph is used, it holds the last record of each hash that was
   added while it was not paused, and what is drawn is always up to date: a
   node for each short name, colored and labelled as the last entry with that
   short name, and an edge for each pointer. *)
Theorem C70_drawing : forall orep ops,
  let g := fold_left (op_run orep) ops graph_new in let d := fst (graph_drawing g) in
  keeps_last (gr_entries g) (asked orep false ops) /\
  nodes_drawn (map snd (gr_entries g)) (dr_nodes d) /\ edges_drawn (map snd (gr_entries g)) (dr_edges d).
Proof.
  intros orep ops g d. split.
  - apply (ops_keep orep ops graph_new []). split; [constructor|]. intros h e. split; [intros []|]. intros (pre & post & H & _). now destruct pre.
  - assert (d = create_graph (gr_entries g)) as -> by (apply draw_current; apply ops_current; intros ? [=]). apply create_graph_ok.
Qed.

(* ---------------- the drawing after a traversal ---------------- *)

Section Keep.
Variable P : prims.
Variable orep : comp -> text.
Variable get : option name -> option hashv -> res packet.
Variable wr : bool.
Variable I : graph -> Prop.
Hypothesis HI : forall b h ks nm g, I g -> I (snd (add_entry orep b h ks nm g)).
Notation keeps m := (forall s, I (snd s) -> I (snd (snd (m s)))).
Lemma keep_bind {A B} (m : st (gst P) A) (k : A -> st (gst P) B) : keeps m -> (forall a, keeps (k a)) -> keeps (sbind m k).
Proof. intros Hm Hk s Hs. unfold sbind. specialize (Hm s Hs). destruct (m s) as [[a|e] s']; [now apply Hk|exact Hm]. Qed.
Lemma keep_lift {A} (r : res A) : keeps (lift (S := gst P) r).
Proof. intros s Hs. exact Hs. Qed.
Lemma keep_ts {A} (m : st (tst P) A) : keeps (on_ts P m).
Proof. intros s Hs. unfold on_ts. destruct (m (fst s)). exact Hs. Qed.
Lemma keep_add b h ks nm : keeps (on_graph P (add_entry orep b h ks nm)).
Proof. intros s Hs. unfold on_graph. pose proof (HI b h ks nm (snd s) Hs) as H. destruct (add_entry orep b h ks nm (snd s)). exact H. Qed.
Lemma keep_visit go c kids : (forall p, keeps (go p)) -> keeps (gvisit_children P get go c kids).
Proof.
  intros Hg. induction kids as [|i kids IH]; cbn [gvisit_children]; [intros s Hs; exact Hs|].
  apply keep_bind; [apply keep_lift|]. intros p. apply keep_bind; [apply keep_ts|]. intros _. apply keep_bind; [apply Hg|]. intros _. exact IH.
Qed.
Lemma keep_preorder fuel : forall c p, keeps (gpreorder P orep get wr fuel c p).
Proof.
  induction fuel as [|f IH]; intros c p; cbn [gpreorder]; [apply keep_lift|]. apply keep_bind; [apply keep_ts|]. intros _.
  destruct (p_body p) as [b|]; [|apply keep_lift]. destruct (co_ptype b) as [t|]; [|apply keep_lift].
  destruct (t =? PT_MANIFEST).
  - apply keep_bind; [apply keep_lift|]. intros m. apply keep_bind; [apply keep_ts|]. intros m'.
    apply keep_bind. { destruct (m_node m'); [|apply keep_lift]. apply keep_bind; [apply keep_lift|]. intros h. apply keep_add. }
    intros _. apply keep_bind; [apply keep_lift|]. intros c'. destruct (man_hash_values m') as [kids e].
    apply keep_bind; [apply keep_visit; apply IH|]. intros _. destruct e; [apply keep_lift|]. intros s Hs. exact Hs.
  - destruct (t =? PT_DATA); [|apply keep_lift]. apply keep_bind; [apply keep_lift|]. intros h. apply keep_bind; [apply keep_add|]. intros _. apply keep_ts.
Qed.
Lemma keep_traverse fuel root h : keeps (gtraverse P orep get wr fuel root h).
Proof. unfold gtraverse. apply keep_bind; [apply keep_lift|]. intros p. apply keep_bind; [apply keep_ts|]. intros _. apply keep_preorder. Qed.
End Keep.

Lemma mapM_all {A B} (f : A -> res B) l : (forall x, In x l -> exists y, f x = Ok y) -> exists r, mapM f l = Ok r.
Proof.
  induction l as [|x l IH]; intros H; [eexists; reflexivity|]. destruct (H x) as (y & E); [now left|]. destruct IH as (r & Er); [intros z Hz; apply H; now right|].
  exists (y :: r). cbn [mapM]. rewrite E, Er. reflexivity.
Qed.
Lemma plot_in d l : plot_nodes d = Ok l -> forall x c t, In (x, (c, t)) l <-> In (x, Some (c, t)) (dr_nodes d).
Proof.
  unfold plot_nodes. revert l. induction (dr_nodes d) as [|[y [[c0 t0]|]] ns IH]; intros l H x c t; cbn [mapM fst snd bind] in H.
  - apply Ok_inj in H. subst. split; intros [].
  - apply bind_ok in H as (r & Er & H). apply Ok_inj in H. subst l. cbn [In]. rewrite (IH _ Er). split; intros [[= <- <- <-]|K]; auto.
  - discriminate.
Qed.
(* a graph whose edges all end at entries can be plotted *)
Lemma picture g : current g -> NoDup (map fst (gr_entries g)) -> (forall h e, In (h, e) (gr_entries g) -> ge_parent e = h) ->
  (forall a e k, In (a, e) (gr_entries g) -> In k (ge_kids e) -> exists e', In (k, e') (gr_entries g)) ->
  let d := fst (graph_drawing g) in
  exists l, plot_nodes d = Ok l /\
    (forall a b, In (a, b) (dr_edges d) <-> exists h e k, In (h, e) (gr_entries g) /\ In k (ge_kids e) /\ a = short h /\ b = short k) /\
    ((forall h1 e1 h2 e2, In (h1, e1) (gr_entries g) -> In (h2, e2) (gr_entries g) -> short h1 = short h2 -> h1 = h2) ->
     forall x c t, In (x, (c, t)) l <-> exists h e, In (h, e) (gr_entries g) /\ x = short h /\ c = ge_data e /\ t = ge_label e).
Proof.
  intros Hc Nd Hpar Hcl d. apply draw_current in Hc as (Hd & _). fold d in Hd. rewrite Hd. clear d Hd.
  destruct (create_graph_ok (gr_entries g)) as ((Nn & Hl & Hn) & (Ne & He)).
  assert (Hsnd : forall e, In e (map snd (gr_entries g)) -> In (ge_parent e, e) (gr_entries g)).
  { intros e I. apply in_map_iff in I as ([k e'] & Ee & I). cbn [snd] in Ee. subst e'. rewrite (Hpar _ _ I). exact I. }
  destruct (mapM_all (fun x : text * option (bool * text) => match snd x with Some a => Ok (fst x, a) | None => Err KeyError end) (dr_nodes (create_graph (gr_entries g)))) as (l & El).
  { intros [x [a|]] I; [eexists; reflexivity|]. exfalso. apply Hn in I as ((a & e & k & Ie & Ik & _ & ->) & F).
    destruct (Hcl _ _ _ (Hsnd _ Ie) Ik) as (e' & Ie'). apply (F e'); [apply in_map_iff; exists (k, e'); auto|]. now rewrite (Hpar _ _ Ie'). }
  exists l. split; [exact El|]. split.
  - intros a b. rewrite He. split.
    + intros (e & k & Ie & Ik & -> & ->). exists (ge_parent e), e, k. split; [now apply Hsnd|]. auto.
    + intros (h0 & e & k & Ie & Ik & -> & ->). exists e, k. split; [apply in_map_iff; exists (h0, e); auto|]. split; [exact Ik|]. split; [|reflexivity]. now rewrite (Hpar _ _ Ie).
  - intros Hs x c lab. rewrite (plot_in _ _ El), Hl.
    split.
    + intros (e & L & -> & ->). apply last_entry_in in L as (I & <-). exists (ge_parent e), e. split; [now apply Hsnd|]. auto.
    + intros (k & e & I & -> & -> & ->). exists e. split; [|auto].
      assert (In e (map snd (gr_entries g))) as Ie by (apply in_map_iff; exists (k, e); auto).
      destruct (last_such (fun y => short (ge_parent y) = short k) (map snd (gr_entries g))) as (pre & y & post & E & Hy & F).
      { intros y. destruct (beqb (short (ge_parent y)) (short k)) eqn:Q; [left; now apply beqb_spec|right; now apply beqb_neq]. }
      { exists e. split; [exact Ie|]. now rewrite (Hpar _ _ I). }
      assert (In y (map snd (gr_entries g))) as Iy by (rewrite E; apply in_elt).
      assert (y = e) as ->. { apply Hsnd in Iy. pose proof (Hs _ _ _ _ Iy I Hy) as Q. rewrite Q in Iy. clear - Nd I Iy.
        induction (gr_entries g) as [|[k0 v0] d IH]; [destruct I|]. cbn [map fst] in Nd. apply NoDup_cons_iff in Nd as (N1 & N2).
        assert (forall v, In (k, v) d -> k <> k0) as Hne. { intros w Hw ->. apply N1. apply in_map_iff. exists (k0, w). auto. }
        destruct I as [I|I], Iy as [J|J]; [congruence| | |eauto]; [injection I as <- <-; destruct (Hne _ J eq_refl)|injection J as <- <-; destruct (Hne _ I eq_refl)]. }
      exists pre, post. auto.
Qed.
(* The graph that a traversal hands to plot() is complete: each node has a color
   and a label.  When no two of the hashes seen share their first three bytes
   it shows exactly the packets visited and their pointers. *)
Theorem C70_picture : forall P orep get wr ks fuel root h s' g,
  (forall nm k q, get nm (Some k) = Ok q -> packet_hash (pr_sha P) q = Ok k) ->
  gtraverse P orep get wr fuel root h (tst_new P ks, graph_new) = (Ok tt, (s', g)) ->
  let d := fst (graph_drawing g) in
  exists l, plot_nodes d = Ok l /\
    (forall a b, In (a, b) (dr_edges d) <-> exists h e k, In (h, e) (gr_entries g) /\ In k (ge_kids e) /\ a = short h /\ b = short k) /\
    ((forall h1 e1 h2 e2, In (h1, e1) (gr_entries g) -> In (h2, e2) (gr_entries g) -> short h1 = short h2 -> h1 = h2) ->
     forall x c t, In (x, (c, t)) l <-> exists h e, In (h, e) (gr_entries g) /\ x = short h /\ c = ge_data e /\ t = ge_label e).
Proof.
  intros P orep get wr ks fuel root h s' g Hon H. apply picture.
  - pose proof (keep_traverse P orep get wr current (add_current orep) fuel root h (tst_new P ks, graph_new)) as K. rewrite H in K. apply K. intros ? [=].
  - now apply C70_tree in H as (_ & t & _ & _ & _ & _ & (Nd & R)).
  - apply C70_tree in H as (_ & t & _ & _ & _ & _ & (Nd & R)). intros k e I. apply R in I as (pre & p & n & post & _ & (_ & Hp & _) & _). exact Hp.
  - exact (C70_closed _ _ _ _ _ _ _ _ _ _ Hon H).
Qed.
(* Two hashes with the same short name are drawn as one node, although both
   have their entry. *)
Theorem C70_picture_refuted : exists orep g h1 e1 h2 e2,
  g = fold_left (op_run orep) [OpData h1 None; OpData h2 None] graph_new /\ h1 <> h2 /\
  gr_entries g = [(h1, e1); (h2, e2)] /\ exists x, map fst (dr_nodes (fst (graph_drawing g))) = [x].
Proof.
  exists (fun _ => []). eexists. exists (mkHash 1 (repeat 1 31 ++ [2])). eexists. exists (mkHash 1 (repeat 1 32)). eexists.
  split; [reflexivity|]. split; [discriminate|]. split; [vm_compute; reflexivity|]. eexists. vm_compute. reflexivity.
Qed.
(* A pointer to a packet that was never added makes plot() fail. *)
Theorem C70_plot_refuted : exists orep h n, let g := fold_left (op_run orep) [OpManifest h n None] graph_new in
  zlen (gr_entries g) = 1 /\ plot_nodes (fst (graph_drawing g)) = Err KeyError.
Proof.
  exists (fun _ => []), (mkHash 1 (repeat 1 32)), (mkNode None [mkHG None (Some [mkHash 1 (repeat 2 32)])] None). vm_compute. auto.
Qed.

(** ** Examples *)

Definition no_repr (c : comp) : text := [].
(* the tree of PropsTraversal.v under a root that has a name *)
Definition nm_r : name := [mkComp 1 KBytes [114]].
Definition ex_store70 : res (hashv * list packet) :=
  d1 <- ex_pkt (Some nm_b) [1; 2] ;; h1 <- ph d1 ;;
  m <- ex_man nm_a [def1 nm_b] [h1] ;; hm <- ph m ;;
  d2 <- ex_pkt (Some nm_a) [3] ;; h2 <- ph d2 ;;
  root <- ex_man nm_r [def1 nm_a] [hm; h2] ;; hr <- ph root ;;
  Ok (hr, [root; m; d1; d2]).
Definition ex_graph70 : res (res unit * Z * graph) :=
  x <- ex_store70 ;;
  d <- mem_reader toy (snd x) ;;
  let '(r, (s, g)) := gtraverse toy no_repr (mem_get d) true 3 (Some nm_r) (Some (fst x)) (tst_new toy None, graph_new) in
  Ok (r, ts_count s, g).
(* four entries; the labels are the URIs ccnx:/Name=r, ccnx:/Name=a, ccnx:/Name=b and
   ccnx:/Name=a *)
Example C70_ex : match ex_graph70 with
  | Ok (r, n, g) => r = Ok tt /\ n = 4 /\
      map (fun x => (ge_data (snd x), ge_label (snd x), length (ge_kids (snd x)))) (gr_entries g) =
        [(false, [99; 99; 110; 120; 58; 47; 78; 97; 109; 101; 61; 114], 2%nat); (false, [99; 99; 110; 120; 58; 47; 78; 97; 109; 101; 61; 97], 1%nat);
         (true, [99; 99; 110; 120; 58; 47; 78; 97; 109; 101; 61; 98], 0%nat); (true, [99; 99; 110; 120; 58; 47; 78; 97; 109; 101; 61; 97], 0%nat)] /\
      length (dr_edges (fst (graph_drawing g))) = 3%nat /\
      match plot_nodes (fst (graph_drawing g)) with Ok l => length l = 4%nat | Err _ => False end
  | Err _ => False end.
Proof. vm_compute. repeat split. Qed.

(* a reader over a list of packets answers with the hash asked for, and this
   traversal meets the hypotheses of C70_picture *)
Lemma mem_reader_honest P ps d : mem_reader P ps = Ok d ->
  forall nm k q, mem_get d nm (Some k) = Ok q -> packet_hash (pr_sha P) q = Ok k.
Proof.
  intros H nm k q G. pose proof (mem_reader_get _ _ _ H k) as R. unfold mem_get in G.
  destruct (dict_get hashv_key_eqb k d) as [p|]; [|discriminate]. destruct R as (l1 & l2 & _ & E & _).
  assert (p = q) as <-; [|exact E]. unfold check_name in G. destruct (body_name p); [|congruence].
  apply bind_ok in G as (b & _ & G). apply bind_ok in G as (c & _ & G). now apply Ok_inj in G.
Qed.
Example C70_picture_ex : exists d h s' g l, mem_reader toy (match ex_store70 with Ok x => snd x | Err _ => [] end) = Ok d /\
  gtraverse toy no_repr (mem_get d) true 3 (Some nm_r) (Some h) (tst_new toy None, graph_new) = (Ok tt, (s', g)) /\
  plot_nodes (fst (graph_drawing g)) = Ok l /\ zlen l = 4.
Proof.
  pose proof C70_ex as H. unfold ex_graph70 in H. destruct ex_store70 as [[h ps]|]; [|contradiction]. cbn [bind fst snd] in *.
  destruct (mem_reader toy ps) as [d|]; [|contradiction]. cbn [bind] in H. exists d, h.
  destruct (gtraverse toy no_repr (mem_get d) true 3 (Some nm_r) (Some h) (tst_new toy None, graph_new)) as [r [s g]].
  destruct H as (-> & _ & _ & _ & H). exists s, g. destruct (plot_nodes (fst (graph_drawing g))) as [l|]; [|contradiction].
  exists l. split; [reflexivity|]. split; [reflexivity|]. split; [reflexivity|]. unfold zlen. rewrite H. reflexivity.
Qed.

(* without that hypothesis: data whose name has a segment that is not UTF-8 *)
Theorem C70_same_refuted : exists p, let get := fun (_ : option name) (_ : option hashv) => Ok p in
  (exists s', traverse toy get true 1 None None (tst_new toy None) = (Ok tt, s') /\ ts_out s' = [[7]]) /\
  forall orep, exists sg, gtraverse toy orep get true 1 None None (tst_new toy None, graph_new) = (Err ValueError, sg).
Proof.
  assert (match ex_pkt (Some [mkComp 1 KBytes [255]]) [7] with
    | Ok p => let get := fun (_ : option name) (_ : option hashv) => Ok p in
      fst (traverse toy get true 1 None None (tst_new toy None)) = Ok tt /\
      ts_out (snd (traverse toy get true 1 None None (tst_new toy None))) = [[7]] /\
      forall orep, fst (gtraverse toy orep get true 1 None None (tst_new toy None, graph_new)) = Err ValueError
    | Err _ => False end) as H by (vm_compute; repeat split).
  destruct (ex_pkt (Some [mkComp 1 KBytes [255]]) [7]) as [p|]; [|contradiction]. exists p. cbv zeta in *. destruct H as (H1 & H2 & H3). split.
  - eexists. split; [|exact H2]. rewrite <- H1. apply surjective_pairing.
  - intros orep. eexists. rewrite <- (H3 orep). apply surjective_pairing.
Qed.

Print Assumptions C70_tree.
Print Assumptions C70_closed.
Print Assumptions C70_same.
Print Assumptions C70_same_refuted.
Print Assumptions C70_drawing.
Print Assumptions C70_picture.
Print Assumptions C70_picture_refuted.
Print Assumptions C70_plot_refuted.
