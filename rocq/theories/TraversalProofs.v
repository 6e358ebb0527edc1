(* Proofs about traversals. *)
From Coq Require Import ZArith List Bool Lia ZifyBool.
From Verif Require Import Py Float Tlv Core TlvProofs FloatProofs CoreProofs Spec Flic Crypto CryptoProofs
  Optimizer Tree Store Traversal TraversalSpec.
Import ListNotations.
Open Scope Z_scope.
Opaque tlv_make tlv_wire tlv_deserialize.

Scheme walk_ind2 := Induction for walk Sort Prop
with walks_ind2 := Induction for walks Sort Prop.
Combined Scheme walk_walks_ind from walk_ind2, walks_ind2.

(* ---------------- definitions ---------------- *)

Lemma last_def_snoc nc ds d : last_def nc (ds ++ [d]) =
  match nd_id d with
  | Some n => if n =? nc then Some d else last_def nc ds
  | None => last_def nc ds
  end.
Proof.
  induction ds as [|x ds IH]; cbn [app last_def].
  - destruct (nd_id d) as [n|]; [destruct (n =? nc)|]; reflexivity.
  - rewrite IH. destruct (nd_id d) as [n|]; [destruct (n =? nc)|]; reflexivity.
Qed.
Lemma last_def_in nc ds d : last_def nc ds = Some d -> In d ds /\ nd_id d = Some nc.
Proof.
  induction ds as [|x ds IH] using rev_ind; [discriminate|]. rewrite last_def_snoc. intros H.
  assert (last_def nc ds = Some d -> In d (ds ++ [x]) /\ nd_id d = Some nc) as K
    by (intros H'; apply IH in H' as [A B]; split; [apply in_or_app; auto|assumption]).
  destruct (nd_id x) as [n|] eqn:E; [|auto]. destruct (n =? nc) eqn:En; [|auto].
  injection H as <-. apply Z.eqb_eq in En. subst n. split; [apply in_or_app; right; left; reflexivity|assumption].
Qed.
Lemma resolve_in nc D d : resolve nc D = Some d -> exists ds, In ds D /\ In d ds /\ nd_id d = Some nc.
Proof.
  induction D as [|ds D IH]; [discriminate|]. cbn [resolve]. destruct (last_def nc ds) as [x|] eqn:E.
  - intros [= ->]. apply last_def_in in E as [A B]. exists ds. auto with datatypes.
  - intros H. apply IH in H as (ds' & A & B). exists ds'. auto with datatypes.
Qed.

Lemma impl_make_eq nc s i : impl_make nc s = Ok i -> i = mkImpl nc s.
Proof. unfold impl_make. intros H. inv_bind H. inv_bind H. injection H as <-. reflexivity. Qed.

Lemma cache_def_ok c d c' : cache_def c d = Ok c' ->
  def_ok d /\ exists nc s, nd_id d = Some nc /\ nd_schema d = Some s /\ c' = (nc, mkImpl nc s) :: c.
Proof.
  unfold cache_def. intros H. destruct (nd_id d) as [nc|] eqn:En; [|discriminate]. apply bind_ok in H as (u & T & H). apply int_text_ok in T. inv_bind H. inv_bind H.
  apply Ok_inj in H. subst c'. unfold from_ncdef in E0. destruct (nd_schema d) as [s|] eqn:Es; [|discriminate].
  pose proof (impl_make_eq _ _ _ E0) as ->. split.
  - exists nc, s. destruct a. auto.
  - exists nc, s. auto.
Qed.
Lemma cache_def_intro c d : def_ok d -> exists nc s, nd_id d = Some nc /\ nd_schema d = Some s /\
  cache_def c d = Ok ((nc, mkImpl nc s) :: c).
Proof.
  intros (nc & s & En & Es & Et & Er & Ei). exists nc, s. split; [assumption|]. split; [assumption|].
  unfold cache_def, from_ncdef. rewrite En, Es, Er, (proj2 (int_text_ok nc tt) Et). cbn [bind]. rewrite Ei. reflexivity.
Qed.
Lemma cache_def_err c c' d e : cache_def c d = Err e -> cache_def c' d = Err e.
Proof.
  unfold cache_def. destruct (nd_id d) as [z|]; [|auto]. destruct (int_text z); [|auto]. cbn [bind].
  destruct (match nd_schema d with Some s => schema_repr s | None => Ok tt end); [|auto]. cbn [bind].
  destruct (from_ncdef z (nd_schema d)); cbn [bind]; [discriminate|auto].
Qed.

(* the cache holds what is in scope *)
Definition cache_of (c : ncache) (D : scope) : Prop :=
  forall nc, dict_get Z.eqb nc c =
    match resolve nc D with
    | Some d => match nd_schema d with Some s => Some (mkImpl nc s) | None => None end
    | None => None
    end.
Definition scope_ok (D : scope) : Prop := Forall (Forall def_ok) D.

Lemma cache_of_nil : cache_of [] [].
Proof. intros nc. reflexivity. Qed.

Lemma update_defs D ds : forall c, cache_of c D ->
  match foldM cache_def c ds with
  | Ok c' => Forall def_ok ds /\ cache_of c' (ds :: D)
  | Err e => exists l1 d l2, ds = l1 ++ d :: l2 /\ Forall def_ok l1 /\ cache_def [] d = Err e
  end.
Proof.
  induction ds as [|d ds IH] using rev_ind; intros c H; cbn [foldM].
  - split; [constructor|]. intros nc. cbn [resolve last_def]. apply H.
  - rewrite foldM_app. specialize (IH c H). destruct (foldM cache_def c ds) as [c1|e]; cbn [bind].
    + destruct IH as [F K]. cbn [foldM]. destruct (cache_def c1 d) as [c2|e] eqn:E; cbn [bind].
      * apply cache_def_ok in E as (Hd & nc & s & En & Es & ->). split; [apply Forall_app; auto|].
        intros nc'. cbn [dict_get resolve]. rewrite last_def_snoc, En. destruct (nc =? nc') eqn:Q.
        -- apply Z.eqb_eq in Q. subst nc'. rewrite Es. reflexivity.
        -- apply K.
      * exists ds, d, []. split; [reflexivity|]. split; [assumption|]. eapply cache_def_err; eassumption.
    + destruct IH as (l1 & x & l2 & -> & A & B). exists l1, x, (l2 ++ [d]). split; [rewrite <- app_assoc; reflexivity|auto].
Qed.
Lemma update_ok D ds c : cache_of c D -> Forall def_ok ds ->
  exists c', foldM cache_def c ds = Ok c' /\ cache_of c' (ds :: D).
Proof.
  intros H F. pose proof (update_defs D ds c H) as U. destruct (foldM cache_def c ds) as [c'|e].
  - exists c'. split; [reflexivity|apply U].
  - exfalso. destruct U as (l1 & d & l2 & -> & _ & B). apply Forall_app in F as [_ F]. inversion F as [|? ? Hd _]; subst.
    destruct (cache_def_intro [] d Hd) as (? & ? & _ & _ & B'). congruence.
Qed.
Lemma update_err D l1 d l2 c e : cache_of c D -> Forall def_ok l1 -> cache_def [] d = Err e ->
  foldM cache_def c (l1 ++ d :: l2) = Err e.
Proof.
  intros H F B. rewrite foldM_app. destruct (update_ok D l1 c H F) as (c' & -> & _). cbn [bind foldM].
  rewrite (cache_def_err [] c' d e B). reflexivity.
Qed.

Lemma fetch_target get c D i : cache_of c D -> scope_ok D -> fetch_packet get c i = target get D i.
Proof.
  intros H S. unfold fetch_packet, target. rewrite H. destruct (resolve (hi_nc i) D) as [d|] eqn:E; [|reflexivity].
  apply resolve_in in E as (ds & Hds & Hd & _). unfold scope_ok in S. rewrite Forall_forall in S. specialize (S _ Hds).
  rewrite Forall_forall in S. specialize (S _ Hd) as (nc & s & _ & Es & _). rewrite Es. reflexivity.
Qed.

(* ---------------- decryption ---------------- *)

Section Dec.
Variable P : prims.
Notation tst := (tst P).

Definition same_keys (a b : option (keystore P)) : Prop :=
  option_map (ks_keyid P) a = option_map (ks_keyid P) b.
Lemma validate_keys a b p : same_keys a b -> validate_packet P a p = validate_packet P b p.
Proof.
  unfold same_keys. intros H. unfold validate_packet. destruct (p_alg p) as [[|kid pk kl st]|]; try reflexivity.
  destruct a as [a|], b as [b|]; cbn in H; try discriminate; [|reflexivity]. injection H as H.
  unfold get_rsa. rewrite H. reflexivity.
Qed.

Lemma dc_get_ks s c r s' : dc_get P s c = (r, s') -> dc_ks P s' = dc_ks P s.
Proof.
  unfold dc_get. destruct (match dc_num P s with Some n => _ | None => _ end).
  - intros [= _ <-]. reflexivity.
  - destruct (dc_create P (dc_ks P s) c); intros [= _ <-]; reflexivity.
Qed.
Lemma oimpl_create_keys ks a w i ks' : oimpl_create P ks a w = Ok (i, ks') -> ks_keyid P ks' = ks_keyid P ks.
Proof.
  unfold oimpl_create. destruct (get_aes_key P ks (a_keynum a)).
  - intros [= _ <-]. reflexivity.
  - intros H. inv_bind H. injection H as _ <-. reflexivity.
Qed.
Lemma dc_decrypt_keys s d m r s' : dc_decrypt P s d m = (r, s') -> ks_keyid P (dc_ks P s') = ks_keyid P (dc_ks P s).
Proof.
  unfold dc_decrypt. destruct d as [|ap|].
  1,2: intros [= _ <-]; reflexivity.
  destruct (oaep_decrypt_manifest P (dc_ks P s) (dc_oaep P s) m) as [[r' ks'] oc'] eqn:E. intros [= _ <-].
  cbn [dc_ks]. unfold oaep_decrypt_manifest in E. destruct (m_ctx m) as [[a|a w]|]; try (injection E as _ <- _; reflexivity).
  unfold oaep_get_impl in E. destruct (dict_get okey_eqb (ctx_okey a w) (dc_oaep P s)).
  - injection E as _ <- _. reflexivity.
  - destruct (oimpl_create P (dc_ks P s) a w) as [[i k']|] eqn:C; injection E as _ <- _; [|reflexivity].
    eapply oimpl_create_keys; eassumption.
Qed.
Lemma decrypt_with_ok mine ap m m' : decrypt_manifest_with P mine ap m = Ok m' ->
  exists ctx ct tag n, m_ctx m = Some ctx /\ m_node m = MEnc ct /\ m_tag m = Some tag /\
    decrypt_node P ap ctx ct tag = Ok n /\ m' = mkMan None (MNode n) None.
Proof.
  unfold decrypt_manifest_with. intros H. destruct (m_node m) as [|ct]; [discriminate|].
  destruct (m_ctx m) as [ctx|]; [|discriminate]. inv_bind H. destruct (m_tag m) as [tag|]; [|discriminate].
  inv_bind H. inv_bind H. apply Ok_inj in H. subst m'. exists ctx, ct, tag, a0. auto.
Qed.
Lemma dc_decrypt_ok s d m m' s' : dc_decrypt P s d m = (Ok m', s') ->
  exists ap ctx ct tag n, m_ctx m = Some ctx /\ m_node m = MEnc ct /\ m_tag m = Some tag /\
    decrypt_node P ap ctx ct tag = Ok n /\ m' = mkMan None (MNode n) None.
Proof.
  unfold dc_decrypt. destruct d as [|ap|]; [discriminate|..].
  - intros [= H _]. exists ap. eapply decrypt_with_ok. exact H.
  - destruct (oaep_decrypt_manifest P (dc_ks P s) (dc_oaep P s) m) as [[r' ks'] oc'] eqn:E. intros [= -> _].
    unfold oaep_decrypt_manifest in E. destruct (m_ctx m) as [[a|a w]|] eqn:Ec; try discriminate.
    destruct (oaep_get_impl P (dc_ks P s) (dc_oaep P s) a w) as [[[i|] k'] o']; [|discriminate].
    injection E as E _ _. exists (oi_params i). rewrite <- Ec. eapply decrypt_with_ok. exact E.
Qed.

(* what decrypting a manifest does to the state *)
Lemma t_decrypt_sound m s r s' : t_decrypt P m s = (r, s') ->
  ts_count s' = ts_count s /\ ts_out s' = ts_out s /\ same_keys (ts_keystore P s') (ts_keystore P s) /\
  match r with
  | Ok m' => (m' = m /\ exists n, m_node m = MNode n) \/
      exists ap ctx ct tag n, m_ctx m = Some ctx /\ m_node m = MEnc ct /\ m_tag m = Some tag /\
        decrypt_node P ap ctx ct tag = Ok n /\ m' = mkMan None (MNode n) None
  | Err _ => exists ct, m_node m = MEnc ct
  end.
Proof.
  unfold t_decrypt, is_encrypted. destruct (m_node m) as [n|ct] eqn:En; cbn [negb].
  - intros [= <- <-]. repeat split. left. eauto.
  - destruct (m_ctx m) as [ctx|] eqn:Ec; [|intros [= <- <-]; repeat split; eauto].
    destruct (ts_dc s) as [d|] eqn:Ed; [|intros [= <- <-]; repeat split; eauto].
    destruct (dc_get P d ctx) as [[k|e] d1] eqn:G; pose proof (dc_get_ks _ _ _ _ G) as K1.
    + destruct (dc_decrypt P d1 k m) as [r1 d2] eqn:X. pose proof (dc_decrypt_keys _ _ _ _ _ X) as K2.
      intros [= <- <-]. cbn [ts_count ts_out]. split; [reflexivity|]. split; [reflexivity|]. split.
      * unfold same_keys, ts_keystore. cbn [ts_dc option_map]. rewrite Ed. cbn [option_map]. rewrite K2, K1. reflexivity.
      * destruct r1 as [m'|e]; [|eauto]. right. rewrite <- Ec, <- En. eapply dc_decrypt_ok. exact X.
    + intros [= <- <-]. cbn [ts_count ts_out]. split; [reflexivity|]. split; [reflexivity|]. split; [|eauto].
      unfold same_keys, ts_keystore. cbn [ts_dc option_map]. rewrite Ed. cbn [option_map]. rewrite K1. reflexivity.
Qed.
End Dec.

(* ---------------- soundness ---------------- *)

Definition outcome (e : option exn) : res unit := match e with None => Ok tt | Some e => Err e end.
Definition emitted (wr : bool) (ps : list packet) : list bytes := if wr then flat_map data_of ps else [].
Lemma emitted_app wr a b : emitted wr (a ++ b) = emitted wr a ++ emitted wr b.
Proof. unfold emitted. destruct wr; [apply flat_map_app|reflexivity]. Qed.
Lemma emitted_cons wr p b : emitted wr (p :: b) = emitted wr [p] ++ emitted wr b.
Proof. apply (emitted_app wr [p] b). Qed.

Section Sound.
Variable P : prims.
Variable get : option name -> option hashv -> res packet.
Variable wr : bool.
Variable ks : option (keystore P).
Notation valid := (validate_packet P ks).
(* an invariant of the decryptors, and what decryption does under it *)
Variable I : option (dcache P) -> Prop.
Variable opens : packet -> node -> Prop.
Variable sealed : packet -> exn -> Prop.
Hypothesis decrypts : forall p b m s r s', p_body p = BCO b -> co_ptype b = Some PT_MANIFEST ->
  man_from_content b = Ok m -> I (ts_dc s) -> t_decrypt P m s = (r, s') ->
  I (ts_dc s') /\ match r with Ok m' => exists n, m_node m' = MNode n /\ opens p n | Err e => sealed p e end.
Notation walk := (walk get valid wr opens sealed).
Notation walks := (walks get valid wr opens sealed).

(* the state after visiting some packets *)
Definition after (s s' : tst P) (ps : list packet) : Prop :=
  ts_count s' = ts_count s + zlen ps /\ ts_out s' = ts_out s ++ emitted wr ps /\
  same_keys P (ts_keystore P s') ks.
Lemma after_trans s s1 s2 a b : after s s1 a -> after s1 s2 b -> after s s2 (a ++ b).
Proof.
  intros (A1 & A2 & A3) (B1 & B2 & B3). repeat split; [rewrite zlen_app; lia| |assumption].
  rewrite emitted_app, app_assoc. congruence.
Qed.
Lemma after_nil s : same_keys P (ts_keystore P s) ks -> after s s [].
Proof.
  intros H. repeat split; [change (zlen (@nil packet)) with 0; lia| |assumption].
  unfold emitted. destruct wr; cbn [flat_map]; rewrite app_nil_r; reflexivity.
Qed.

Definition sound_go (D : scope) (go : packet -> st (tst P) unit) : Prop :=
  forall p s r s', go p s = (r, s') -> same_keys P (ts_keystore P s) ks -> I (ts_dc s) -> r <> Err OutOfFuel ->
  exists t, walk D t /\ pt_packet t = p /\ r = outcome (pt_stop t) /\ after s s' (visited t) /\ I (ts_dc s').

Lemma visit_sound D c go : cache_of c D -> scope_ok D -> sound_go D go ->
  forall trail items s r s', visit_children P get go c items s = (r, s') ->
  same_keys P (ts_keystore P s) ks -> I (ts_dc s) -> r <> Err OutOfFuel ->
  I (ts_dc s') /\ match r with
  | Ok _ => exists kids, walks D items trail kids trail /\ after s s' (flat_map visited kids)
  | Err e => exists kids, walks D items trail kids (Some e) /\ after s s' (flat_map visited kids)
  end.
Proof.
  intros HC HD HG trail. induction items as [|i items IH]; intros s r s' H HK HI HF; cbn [visit_children] in H.
  - injection H as <- <-. split; [assumption|]. exists []. split; [constructor|]. apply after_nil. assumption.
  - unfold sbind at 1, lift in H. rewrite (fetch_target get c D i HC HD) in H.
    destruct (target get D i) as [p|e] eqn:Et.
    2:{ injection H as <- <-. split; [assumption|]. exists []. split; [apply WS_missing; assumption|apply after_nil; assumption]. }
    unfold sbind at 1, validate, sbind at 1, sget, lift in H. rewrite (validate_keys P _ ks p HK) in H.
    destruct (valid p) as [[]|e] eqn:Ev.
    2:{ injection H as <- <-. split; [assumption|]. exists []. split; [eapply WS_invalid; eassumption|apply after_nil; assumption]. }
    unfold sbind at 1 in H. destruct (go p s) as [[[]|e] s1] eqn:Eg.
    + destruct (HG _ _ _ _ Eg HK HI) as (t & Wt & <- & Eo & A & HI1); [discriminate|].
      destruct (pt_stop t) as [x|] eqn:Es; [discriminate|].
      destruct (IH s1 r s' H (proj2 (proj2 A)) HI1 HF) as [HI2 IH']. clear IH. split; [assumption|]. destruct r as [u|e].
      * destruct IH' as (kids & W & B). exists (t :: kids). split; [eapply WS_next; eassumption|].
        cbn [flat_map]. eapply after_trans; eassumption.
      * destruct IH' as (kids & W & B). exists (t :: kids). split; [eapply WS_next; eassumption|].
        cbn [flat_map]. eapply after_trans; eassumption.
    + injection H as <- <-. destruct (HG _ _ _ _ Eg HK HI HF) as (t & Wt & <- & Eo & A & HI1). split; [assumption|].
      destruct (pt_stop t) as [x|] eqn:Es; [|discriminate]. cbn [outcome] in Eo. injection Eo as <-.
      exists [t]. split; [eapply WS_stop; eassumption|]. cbn [flat_map]. rewrite app_nil_r. exact A.
Qed.

Lemma preorder_sound f : forall c D, cache_of c D -> scope_ok D -> sound_go D (preorder P get wr f c).
Proof.
  induction f as [|f IH]; intros c D HC HD p s r s' H HK HI HF; cbn [preorder] in H.
  { injection H as <- _. contradiction. }
  unfold sbind at 1, smod in H. set (s0 := mkTs (ts_count s + 1) (ts_out s) (ts_dc s)) in H.
  assert (same_keys P (ts_keystore P s0) ks) as HK0 by exact HK.
  (* the packet itself *)
  assert (data_of p = [] \/ wr = false -> after s s0 [p]) as A0.
  { intros Hd. split; [|split; [|exact HK]]; cbn [ts_count ts_out s0]; [reflexivity|].
    unfold emitted. destruct wr; [|rewrite app_nil_r; reflexivity]. destruct Hd as [Hd|?]; [|discriminate].
    cbn [flat_map]. rewrite Hd. cbn [app]. rewrite app_nil_r. reflexivity. }
  assert (forall e, broken wr p e -> data_of p = [] \/ wr = false -> r = Err e -> s' = s0 ->
    exists t, walk D t /\ pt_packet t = p /\ r = outcome (pt_stop t) /\ after s s' (visited t) /\ I (ts_dc s')) as BR.
  { intros e B Hd -> ->. exists (PT p None [] (Some e)). split; [apply W_broken; assumption|].
    split; [reflexivity|]. split; [reflexivity|]. split; [apply A0; assumption|exact HI]. }
  unfold data_of in *. destruct (p_body p) as [b|n] eqn:Eb.
  2:{ injection H as <- <-. eapply BR; [eapply B_interest; eassumption| |reflexivity..]. auto. }
  destruct (co_ptype b) as [ty|] eqn:Ety.
  2:{ injection H as <- <-. eapply BR; [eapply B_untyped; eassumption| |reflexivity..]. auto. }
  destruct (ty =? PT_MANIFEST) eqn:Em.
  - apply Z.eqb_eq in Em. subst ty.
    assert (match co_payload b with Some b0 => if PT_MANIFEST =? PT_DATA then [b0] else [] | None => [] end = [] \/ wr = false)
      as Hd by (left; destruct (co_payload b); reflexivity).
    unfold sbind at 1, lift in H. destruct (man_from_content b) as [m|e] eqn:Emf.
    2:{ injection H as <- <-. eapply BR; [eapply B_manifest; eassumption|assumption|reflexivity..]. }
    unfold sbind at 1 in H. destruct (t_decrypt P m s0) as [r1 s1] eqn:Ed.
    destruct (decrypts p b m s0 r1 s1 Eb Ety Emf HI Ed) as [HI1 R1].
    apply t_decrypt_sound in Ed as (C1 & O1 & K1 & _).
    assert (after s s1 [p]) as A1.
    { destruct (A0 Hd) as (X & Y & Z). split; [congruence|]. split; [congruence|].
      unfold same_keys in *. congruence. }
    destruct r1 as [m'|e].
    2:{ injection H as <- <-. exists (PT p None [] (Some e)). split; [|split; [reflexivity|split; [reflexivity|split; [exact A1|exact HI1]]]].
        apply W_sealed. exact R1. }
    destruct R1 as (n & Hn & Ho).
    unfold sbind at 1, lift, update_nc_cache in H. rewrite Hn in H.
    pose proof (update_defs D (node_defs n) c HC) as U. unfold node_defs in U at 1.
    replace (match n_data n with None => Ok c | Some d => foldM cache_def c (nd_ncdefs d) end)
      with (foldM cache_def c match n_data n with Some d => nd_ncdefs d | None => [] end) in H
      by (destruct (n_data n); reflexivity).
    destruct (foldM cache_def c match n_data n with Some d => nd_ncdefs d | None => [] end) as [c1|e] eqn:Ef.
    2:{ injection H as <- <-. destruct U as (l1 & d & l2 & E1 & E2 & E3).
        exists (PT p (Some n) [] (Some e)). split; [|split; [reflexivity|split; [reflexivity|split; [exact A1|exact HI1]]]].
        eapply W_defs; eassumption. }
    destruct U as [U1 U2]. unfold man_hash_values in H. rewrite Hn in H.
    destruct (node_iter (n_groups n)) as [items trail] eqn:Ei. unfold sbind at 1 in H.
    assert (scope_ok (node_defs n :: D)) as HD' by (constructor; assumption).
    destruct (visit_children P get (preorder P get wr f c1) c1 items s1) as [r2 s2] eqn:Ev.
    assert (r2 <> Err OutOfFuel) as HF2 by (intros ->; injection H as <- _; contradiction).
    destruct (visit_sound _ _ _ U2 HD' (IH c1 _ U2 HD') trail _ _ _ _ Ev (proj2 (proj2 A1)) HI1 HF2) as [HI2 V].
    destruct r2 as [[]|e].
    + destruct V as (kids & W & B). exists (PT p (Some n) kids trail). cbn [pt_packet pt_stop visited].
      split; [eapply W_manifest; rewrite ?Ei; eassumption|]. split; [reflexivity|].
      assert (after s s2 (p :: flat_map visited kids)) as A2 by (apply (after_trans _ _ _ [p] _ A1 B)).
      destruct trail as [e|]; injection H as <- <-; auto.
    + injection H as <- <-. destruct V as (kids & W & B). exists (PT p (Some n) kids (Some e)). cbn [pt_packet pt_stop visited].
      split; [eapply W_manifest; rewrite ?Ei; eassumption|]. split; [reflexivity|]. split; [reflexivity|].
      split; [apply (after_trans _ _ _ [p] _ A1 B)|assumption].
  - apply Z.eqb_neq in Em. destruct (ty =? PT_DATA) eqn:Edt.
    + apply Z.eqb_eq in Edt. subst ty. unfold write_data, lift, smod, sret in H.
      destruct (co_payload b) as [pl|] eqn:Ep.
      * exists (PT p None [] None). cbn [pt_packet pt_stop visited flat_map].
        split; [eapply W_data; try eassumption; intros _; congruence|]. split; [reflexivity|].
        destruct wr eqn:Ewr; injection H as <- <-; (split; [reflexivity|]).
        -- split; [|exact HI]. split; [reflexivity|]. split; [|exact HK]. cbn [ts_out s0]. unfold emitted. cbn [flat_map].
           unfold data_of. rewrite Eb, Ety, Ep. change (PT_DATA =? PT_DATA) with true. rewrite Ewr, app_nil_r. reflexivity.
        -- split; [apply A0; auto|exact HI].
      * destruct wr eqn:Ewr; injection H as <- <-.
        -- eapply BR; [eapply B_empty; eauto| |reflexivity..]. auto.
        -- exists (PT p None [] None). cbn [pt_packet pt_stop visited flat_map].
           split; [eapply W_data; try eassumption; discriminate|]. split; [reflexivity|]. split; [reflexivity|]. split; [apply A0; auto|exact HI].
    + apply Z.eqb_neq in Edt. injection H as <- <-. eapply BR; [eapply B_type; eassumption| |reflexivity..].
      left. destruct (co_payload b); [|reflexivity]. destruct (ty =? PT_DATA) eqn:Q; [|reflexivity]. apply Z.eqb_eq in Q. contradiction.
Qed.
End Sound.

(* decryption with any key store *)
Lemma decrypts_readable P p b m s r s' : p_body p = BCO b -> co_ptype b = Some PT_MANIFEST ->
  man_from_content b = Ok m -> True -> t_decrypt P m s = (r, s') ->
  True /\ match r with Ok m' => exists n, m_node m' = MNode n /\ readable P p n | Err e => encrypted p end.
Proof.
  intros Eb Et Em _ H. split; [exact I|]. apply t_decrypt_sound in H as (_ & _ & _ & R). destruct r as [m'|e].
  - destruct R as [(-> & n & Hn)|(ap & ctx & ct & tag & n & Hc & Hn & Ht & Hdn & ->)].
    + exists n. split; [assumption|]. exists b, m. auto 6.
    + exists n. split; [reflexivity|]. exists b, m. split; [assumption|]. split; [assumption|]. split; [assumption|].
      right. exists ap, ctx, ct, tag. auto.
  - destruct R as (ct & Hct). exists b, m, ct. auto.
Qed.

(* ---------------- completeness ---------------- *)

Section Complete.
Variable P : prims.
Variable get : option name -> option hashv -> res packet.
Variable wr : bool.
Variable ks : option (keystore P).
(* an invariant of the decryptors under which every packet of the tree can be
   opened *)
Variable I : option (dcache P) -> Prop.
Definition opened (p : packet) (n : node) : Prop :=
  exists c m, p_body p = BCO c /\ co_ptype c = Some PT_MANIFEST /\ man_from_content c = Ok m /\
    forall s, I (ts_dc s) -> exists m' s', t_decrypt P m s = (Ok m', s') /\ m_node m' = MNode n /\ I (ts_dc s').
Definition refused (p : packet) (e : exn) : Prop :=
  exists c m, p_body p = BCO c /\ co_ptype c = Some PT_MANIFEST /\ man_from_content c = Ok m /\
    forall s, I (ts_dc s) -> exists s', t_decrypt P m s = (Err e, s') /\ I (ts_dc s').
Notation valid := (validate_packet P ks).
Notation walk := (walk get valid wr opened refused).
Notation walks := (walks get valid wr opened refused).
Notation after := (after P wr ks).

Lemma depth_le t kids f : In t kids -> (fold_right (fun k n => Nat.max (depth k) n) O kids <= f)%nat -> (depth t <= f)%nat.
Proof.
  induction kids as [|k kids IH]; [contradiction|]. cbn [fold_right]. intros [<-|H] L; [lia|]. apply IH; [assumption|lia].
Qed.

Lemma complete :
  (forall D t, walk D t -> forall f c s, (depth t <= f)%nat -> cache_of c D -> scope_ok D ->
     same_keys P (ts_keystore P s) ks -> I (ts_dc s) ->
     exists s', preorder P get wr f c (pt_packet t) s = (outcome (pt_stop t), s') /\
       after s s' (visited t) /\ I (ts_dc s')) /\
  (forall D items trail kids stop, walks D items trail kids stop -> forall f c s,
     (fold_right (fun k n => Nat.max (depth k) n) O kids <= f)%nat -> cache_of c D -> scope_ok D ->
     same_keys P (ts_keystore P s) ks -> I (ts_dc s) ->
     exists r s', visit_children P get (preorder P get wr f c) c items s = (r, s') /\
       after s s' (flat_map visited kids) /\ I (ts_dc s') /\
       match r with Ok _ => stop = trail | Err e => stop = Some e end).
Proof.
  apply walk_walks_ind; cbn [pt_packet pt_stop visited depth flat_map fold_right outcome].
  - (* broken *)
    intros D p e B f c s L HC HD HK HI. destruct f as [|f]; [lia|]. cbn [preorder].
    unfold sbind at 1, smod. set (s0 := mkTs (ts_count s + 1) (ts_out s) (ts_dc s)).
    exists s0. assert (data_of p = [] /\ forall c', preorder P get wr (S f) c' p s = (Err e, s0)) as [Hd Hr].
    { unfold data_of. cbn [preorder]. unfold sbind at 1, smod. fold s0. destruct B as [q n Eb|q b Eb Et|q b t Eb Et N1 N2|q b Eb Et Ep W|q b e0 Eb Et Em]; rewrite Eb.
      - auto.
      - rewrite Et. auto.
      - rewrite Et. apply Z.eqb_neq in N1, N2. rewrite N1, N2. destruct (co_payload b); auto.
      - rewrite Et, Ep. change (PT_DATA =? PT_MANIFEST) with false. change (PT_DATA =? PT_DATA) with true.
        split; [reflexivity|]. intros _. unfold write_data. rewrite W. reflexivity.
      - rewrite Et. change (PT_MANIFEST =? PT_DATA) with false. change (PT_MANIFEST =? PT_MANIFEST) with true.
        split; [destruct (co_payload b); reflexivity|]. intros c'. unfold sbind at 1, lift. rewrite Em. reflexivity. }
    specialize (Hr c). cbn [preorder] in Hr. unfold sbind at 1, smod in Hr. fold s0 in Hr. split; [exact Hr|]. split; [|exact HI].
    split; [reflexivity|]. split; [|exact HK]. unfold emitted. cbn [flat_map]. rewrite Hd.
    destruct wr; cbn [app]; rewrite app_nil_r; reflexivity.
  - (* sealed *)
    intros D p e (b & m & Eb & Et & Em & Hs) f c s L HC HD HK HI. destruct f as [|f]; [lia|]. cbn [preorder].
    unfold sbind at 1, smod. set (s0 := mkTs (ts_count s + 1) (ts_out s) (ts_dc s)).
    destruct (Hs s0 HI) as (s' & Hd & HI'). exists s'. rewrite Eb, Et. change (PT_MANIFEST =? PT_MANIFEST) with true.
    unfold sbind at 1, lift. rewrite Em. unfold sbind at 1. rewrite Hd. split; [reflexivity|]. split; [|assumption].
    apply t_decrypt_sound in Hd as (C1 & O1 & K1 & _). split; [rewrite C1; reflexivity|]. split.
    + rewrite O1. unfold emitted. cbn [flat_map]. unfold data_of. rewrite Eb, Et. change (PT_MANIFEST =? PT_DATA) with false.
      destruct wr, (co_payload b); cbn [app]; rewrite app_nil_r; reflexivity.
    + unfold same_keys in *. rewrite K1. exact HK.
  - (* data *)
    intros D p b Eb Et Ep f c s L HC HD HK HI. destruct f as [|f]; [lia|]. cbn [preorder].
    unfold sbind at 1, smod. set (s0 := mkTs (ts_count s + 1) (ts_out s) (ts_dc s)). rewrite Eb, Et.
    change (PT_DATA =? PT_MANIFEST) with false. change (PT_DATA =? PT_DATA) with true. unfold write_data, lift, smod, sret.
    destruct (wr) eqn:Ew.
    + destruct (co_payload b) as [pl|] eqn:Epl; [|exfalso; apply Ep; reflexivity].
      eexists. split; [reflexivity|]. split; [|exact HI]. split; [reflexivity|]. split; [|exact HK].
      cbn [ts_out s0]. unfold emitted. cbn [flat_map]. unfold data_of. rewrite Eb, Et, Epl.
      change (PT_DATA =? PT_DATA) with true. rewrite app_nil_r. reflexivity.
    + eexists. split; [reflexivity|]. split; [|exact HI]. split; [reflexivity|]. split; [|exact HK].
      unfold emitted. rewrite app_nil_r. reflexivity.
  - (* bad definition *)
    intros D p n l1 d l2 e (b & m & Eb & Et & Em & Hs) En F Ed f c s L HC HD HK HI. destruct f as [|f]; [lia|]. cbn [preorder].
    unfold sbind at 1, smod. set (s0 := mkTs (ts_count s + 1) (ts_out s) (ts_dc s)).
    destruct (Hs s0 HI) as (m' & s' & Hd & Hn & HI'). exists s'. rewrite Eb, Et. change (PT_MANIFEST =? PT_MANIFEST) with true.
    unfold sbind at 1, lift. rewrite Em. unfold sbind at 1. rewrite Hd. unfold sbind at 1, update_nc_cache. rewrite Hn.
    replace (match n_data n with None => Ok c | Some d => foldM cache_def c (nd_ncdefs d) end)
      with (foldM cache_def c (node_defs n)) by (unfold node_defs; destruct (n_data n); reflexivity).
    rewrite En, (update_err D l1 d l2 c e HC F Ed). split; [reflexivity|]. split; [|assumption].
    apply t_decrypt_sound in Hd as (C1 & O1 & K1 & _). split; [rewrite C1; reflexivity|]. split.
    + rewrite O1. unfold emitted. cbn [flat_map]. unfold data_of. rewrite Eb, Et. change (PT_MANIFEST =? PT_DATA) with false.
      destruct wr, (co_payload b); cbn [app]; rewrite app_nil_r; reflexivity.
    + unfold same_keys in *. rewrite K1. exact HK.
  - (* manifest *)
    intros D p n kids stop (b & m & Eb & Et & Em & Hs) F W IH f c s L HC HD HK HI. destruct f as [|f]; [lia|]. cbn [preorder].
    unfold sbind at 1, smod. set (s0 := mkTs (ts_count s + 1) (ts_out s) (ts_dc s)).
    destruct (Hs s0 HI) as (m' & s1 & Hd & Hn & HI'). rewrite Eb, Et. change (PT_MANIFEST =? PT_MANIFEST) with true.
    unfold sbind at 1, lift. rewrite Em. unfold sbind at 1. rewrite Hd. unfold sbind at 1, update_nc_cache. rewrite Hn.
    replace (match n_data n with None => Ok c | Some d => foldM cache_def c (nd_ncdefs d) end)
      with (foldM cache_def c (node_defs n)) by (unfold node_defs; destruct (n_data n); reflexivity).
    destruct (update_ok D (node_defs n) c HC F) as (c1 & -> & HC1). unfold man_hash_values. rewrite Hn.
    assert (after s s1 [p]) as A1.
    { apply t_decrypt_sound in Hd as (C1 & O1 & K1 & _). split; [rewrite C1; reflexivity|]. split.
      + rewrite O1. unfold emitted. cbn [flat_map]. unfold data_of. rewrite Eb, Et. change (PT_MANIFEST =? PT_DATA) with false.
        destruct wr, (co_payload b); cbn [app]; rewrite app_nil_r; reflexivity.
      + unfold same_keys in *. rewrite K1. exact HK. }
    destruct (node_iter (n_groups n)) as [items trail] eqn:Ei. cbn [fst snd] in *.
    assert (scope_ok (node_defs n :: D)) as HD' by (constructor; assumption).
    destruct (IH f c1 s1 ltac:(lia) HC1 HD' (proj2 (proj2 A1)) HI') as (r & s2 & Hv & A2 & HI2 & Hr).
    unfold sbind at 1. rewrite Hv. exists s2.
    assert (after s s2 (p :: flat_map visited kids)) as A by (apply (after_trans P wr ks _ _ _ [p] _ A1 A2)).
    destruct r as [[]|e].
    + subst stop. split; [destruct trail; reflexivity|]. auto.
    + subst stop. split; [reflexivity|]. auto.
  - (* end *)
    intros D trail f c s L HC HD HK HI. exists (Ok tt), s. split; [reflexivity|]. split; [apply after_nil; assumption|]. auto.
  - (* missing *)
    intros D i items trail e Et f c s L HC HD HK HI. exists (Err e), s. cbn [visit_children]. unfold sbind at 1, lift.
    rewrite (fetch_target get c D i HC HD), Et. split; [reflexivity|]. split; [apply after_nil; assumption|]. auto.
  - (* invalid *)
    intros D i items trail p e Et Ev f c s L HC HD HK HI. exists (Err e), s. cbn [visit_children]. unfold sbind at 1, lift.
    rewrite (fetch_target get c D i HC HD), Et. unfold sbind at 1, validate, sbind at 1, sget, lift.
    rewrite (validate_keys P _ ks p HK), Ev. split; [reflexivity|]. split; [apply after_nil; assumption|]. auto.
  - (* stop *)
    intros D i items trail t e Et Ev W IH Es f c s L HC HD HK HI. cbn [visit_children]. unfold sbind at 1, lift.
    rewrite (fetch_target get c D i HC HD), Et. unfold sbind at 1, validate, sbind at 1, sget, lift.
    rewrite (validate_keys P _ ks _ HK), Ev. destruct (IH f c s ltac:(lia) HC HD HK HI) as (s' & Hp & A & HI').
    unfold sbind at 1. rewrite Hp, Es. exists (Err e), s'. split; [reflexivity|]. rewrite app_nil_r. auto.
  - (* next *)
    intros D i items trail t kids stop Et Ev W IH Es Ws IHs f c s L HC HD HK HI. cbn [visit_children]. unfold sbind at 1, lift.
    rewrite (fetch_target get c D i HC HD), Et. unfold sbind at 1, validate, sbind at 1, sget, lift.
    rewrite (validate_keys P _ ks _ HK), Ev. destruct (IH f c s ltac:(lia) HC HD HK HI) as (s1 & Hp & A & HI').
    unfold sbind at 1. rewrite Hp, Es. cbn [outcome].
    destruct (IHs f c s1 ltac:(lia) HC HD (proj2 (proj2 A)) HI') as (r & s2 & Hv & A2 & HI2 & Hr).
    exists r, s2. split; [exact Hv|]. split; [eapply after_trans; eassumption|]. auto.
Qed.
End Complete.

(* ---------------- facts about walks ---------------- *)

Lemma Forall2_len {A B} (R : A -> B -> Prop) l l' : Forall2 R l l' -> length l = length l'.
Proof. induction 1; cbn [length]; congruence. Qed.

Section Facts.
Variable get : option name -> option hashv -> res packet.
Variable valid : packet -> res unit.
Variable wr : bool.
Variable opens : packet -> node -> Prop.
Variable sealed : packet -> exn -> Prop.
Notation walk := (walk get valid wr opens sealed).
Notation walks := (walks get valid wr opens sealed).

Lemma walk_validated :
  (forall D t, walk D t -> valid (pt_packet t) = Ok tt -> Forall (fun p => valid p = Ok tt) (visited t)) /\
  (forall D items trail kids stop, walks D items trail kids stop ->
     Forall (fun p => valid p = Ok tt) (flat_map visited kids)).
Proof.
  apply walk_walks_ind; cbn [pt_packet visited flat_map]; intros; auto.
  - rewrite app_nil_r. auto.
  - apply Forall_app. auto.
Qed.

Lemma walks_kid D items trail kids stop k : walks D items trail kids stop -> In k kids ->
  (exists i, In i items /\ target get D i = Ok (pt_packet k)) /\ walk D k.
Proof.
  induction 1; intros K; try contradiction.
  - destruct K as [<-|[]]. split; [|assumption]. exists i. split; [left; reflexivity|assumption].
  - destruct K as [<-|K].
    + split; [|assumption]. exists i. split; [left; reflexivity|assumption].
    + destruct (IHwalks K) as [(j & A & B) C]. split; [|assumption]. exists j. split; [right; assumption|assumption].
Qed.
Lemma walk_below D0 t : walk D0 t -> forall D k, below t D k -> walk (D ++ D0) k.
Proof.
  intros W D k B. induction B as [|D p n kids stop k B IH K]; [exact W|].
  inversion IH; subst; try contradiction. cbn [app]. eapply walks_kid; eassumption.
Qed.
(* a successful visit meets every pointer *)
Lemma walks_all D items trail kids stop : walks D items trail kids stop -> stop = None ->
  trail = None /\ Forall2 (fun i k => target get D i = Ok (pt_packet k) /\ pt_stop k = None) items kids.
Proof.
  induction 1; intros E; try discriminate.
  - split; [assumption|constructor].
  - destruct (IHwalks E) as [A B]. split; [assumption|]. constructor; auto.
Qed.
End Facts.

(* Weakening the notion of opening. *)
Lemma walk_mono get valid wr (o1 : packet -> node -> Prop) (s1 : packet -> exn -> Prop)
    (o2 : packet -> node -> Prop) (s2 : packet -> exn -> Prop) :
  (forall p n, o1 p n -> o2 p n) -> (forall p e, s1 p e -> s2 p e) ->
  (forall D t, walk get valid wr o1 s1 D t -> walk get valid wr o2 s2 D t) /\
  (forall D items trail kids stop, walks get valid wr o1 s1 D items trail kids stop ->
    walks get valid wr o2 s2 D items trail kids stop).
Proof.
  intros Ho Hs. apply walk_walks_ind; intros.
  - apply W_broken; assumption.
  - apply W_sealed; auto.
  - eapply W_data; eassumption.
  - eapply W_defs; eauto.
  - eapply W_manifest; eauto.
  - apply WS_end.
  - apply WS_missing; assumption.
  - eapply WS_invalid; eassumption.
  - eapply WS_stop; eassumption.
  - eapply WS_next; eassumption.
Qed.

(* ---------------- fuel ---------------- *)

Section Fuel.
Variable P : prims.
Variable get : option name -> option hashv -> res packet.
Variable wr : bool.

Definition extends (go go' : packet -> st (tst P) unit) : Prop :=
  forall p s r s', go p s = (r, s') -> r <> Err OutOfFuel -> go' p s = (r, s').
Lemma visit_extends go go' c : extends go go' ->
  forall items, forall s r s', visit_children P get go c items s = (r, s') -> r <> Err OutOfFuel ->
    visit_children P get go' c items s = (r, s').
Proof.
  intros E. induction items as [|i items IH]; intros s r s' H N; cbn [visit_children] in *; [assumption|].
  unfold sbind at 1, lift in H. unfold sbind at 1, lift. destruct (fetch_packet get c i) as [p|e]; [|assumption].
  unfold sbind at 1 in H. unfold sbind at 1. destruct (validate P p s) as [[[]|e] s1]; [|assumption].
  unfold sbind at 1 in H. unfold sbind at 1. destruct (go p s1) as [r2 s2] eqn:Eg.
  assert (r2 <> Err OutOfFuel) as N2 by (intros ->; injection H as <- _; contradiction).
  rewrite (E _ _ _ _ Eg N2). destruct r2; [|assumption]. apply IH; assumption.
Qed.
Lemma preorder_extends f : forall c, extends (preorder P get wr f c) (preorder P get wr (S f) c).
Proof.
  induction f as [|f IH]; intros c p s r s' H N.
  { cbn [preorder] in H. injection H as <- _. contradiction. }
  remember (S f) as f1 eqn:Ef. rewrite Ef in H. cbn [preorder] in H |- *.
  unfold sbind at 1, smod in H. unfold sbind at 1, smod.
  destruct (p_body p) as [b|n]; [|assumption]. destruct (co_ptype b) as [ty|]; [|assumption].
  destruct (ty =? PT_MANIFEST); [|assumption].
  unfold sbind at 1, lift in H. unfold sbind at 1, lift. destruct (man_from_content b) as [m|e]; [|assumption].
  unfold sbind at 1 in H. unfold sbind at 1. destruct (t_decrypt P m _) as [[m'|e] s1]; [|assumption].
  unfold sbind at 1, lift in H. unfold sbind at 1, lift. destruct (update_nc_cache c m') as [c'|e]; [|assumption].
  destruct (man_hash_values m') as [items trail]. unfold sbind at 1 in H. unfold sbind at 1.
  destruct (visit_children P get (preorder P get wr f c') c' items s1) as [r2 s2] eqn:Ev.
  assert (r2 <> Err OutOfFuel) as N2 by (intros ->; injection H as <- _; contradiction).
  subst f1. rewrite (visit_extends _ _ c' (IH c') items _ _ _ Ev N2). assumption.
Qed.
Lemma preorder_more f f' c : (f <= f')%nat -> extends (preorder P get wr f c) (preorder P get wr f' c).
Proof.
  induction 1 as [|f' L IH]; intros p s r s' H N; [assumption|]. apply preorder_extends; auto.
Qed.
End Fuel.
