(* Lemmas about the manifest TLVs. *)
From Coq Require Import ZArith List Bool Lia ZifyBool.
From Verif Require Import Py Tlv Float Core Flic Spec WireSpec TlvProofs FloatProofs CoreProofs.
Import ListNotations.
Open Scope Z_scope.
Ltac Zify.zify_post_hook ::= Z.div_mod_to_equations.
Opaque tlv_make tlv_wire tlv_deserialize.

(** * Field tables *)

Definition optfld {A V} (k : Z) (f : A -> V) (o : option A) : list (Z * V) :=
  match o with Some a => [(k, f a)] | None => [] end.

Lemma lookup_app {V} ty (a b : list (Z * V)) :
  lookup ty (a ++ b) = match lookup ty a with Some v => Some v | None => lookup ty b end.
Proof. induction a as [|[k v] a IH]; [reflexivity|]. cbn. destruct (k =? ty); auto. Qed.
Lemma lookup_optfld {A V} ty k (f : A -> V) o :
  lookup ty (optfld k f o) = if k =? ty then option_map f o else None.
Proof. destruct o; cbn; [|destruct (k =? ty)]; reflexivity. Qed.

(* one optional field read through the table *)
Lemma auto_opt {A V} (table : Z -> option (tlv -> res V)) b enc k (f : A -> V) p o l vs :
  opt_tlvs enc o l -> table k = Some p ->
  (forall a t, o = Some a -> enc a = Ok t -> t_type t = k /\ p t = Ok (f a)) ->
  lookup k vs = None ->
  foldM (auto_step table b) vs l = Ok (optfld k f o ++ vs).
Proof.
  intros Ho Ht Hp Hv. destruct o as [a|]; cbn [opt_tlvs] in Ho; [|subst; reflexivity].
  destruct Ho as (t & E & ->). destruct (Hp a t eq_refl E) as [Hk Hr].
  cbn [foldM]. unfold auto_step. rewrite Hk, Ht, Hv, Hr. reflexivity.
Qed.

(* a TLV of a type that is not in the table is skipped *)
Lemma auto_skip {V} (table : Z -> option (tlv -> res V)) vs l :
  Forall (fun t => table (t_type t) = None) l -> foldM (auto_step table true) vs l = Ok vs.
Proof.
  induction 1 as [|t l H _ IH]; [reflexivity|]. cbn [foldM]. unfold auto_step at 1. rewrite H. exact IH.
Qed.

(* a property of all parsed fields *)
Lemma auto_step_inv {V} (P : Z -> V -> Prop) table b vs t vs' :
  (forall p v, table (t_type t) = Some p -> p t = Ok v -> P (t_type t) v) ->
  Forall (fun kv => P (fst kv) (snd kv)) vs ->
  auto_step table b vs t = Ok vs' -> Forall (fun kv => P (fst kv) (snd kv)) vs'.
Proof.
  intros Hp Hv H. unfold auto_step in H.
  destruct (table (t_type t)) as [p|]; [|destruct b; [injection H as <-; assumption|discriminate]].
  destruct (lookup _ vs); [discriminate|]. destruct (p t) as [v|e] eqn:E.
  - injection H as <-. constructor; [|assumption]. cbn. eapply Hp; eauto.
  - destruct e; try discriminate. destruct b; [injection H as <-; assumption|discriminate].
Qed.

Lemma auto_value_parse_inv {V} (P : Z -> V -> Prop) table b buf vs :
  bytes_ok buf ->
  (forall t p v, tlv_ok t -> table (t_type t) = Some p -> p t = Ok v -> P (t_type t) v) ->
  auto_value_parse table b buf = Ok vs -> Forall (fun kv => P (fst kv) (snd kv)) vs.
Proof.
  intros Hb Hp H. unfold auto_value_parse in H. revert H.
  apply (tlv_foreach_ind (fun vs => Forall (fun kv => P (fst kv) (snd kv)) vs)); [assumption| |constructor].
  intros s t s' Ht Hs. apply auto_step_inv; [|assumption]. intros p v. apply Hp. assumption.
Qed.

Lemma lookup_forall {V} (P : Z -> V -> Prop) vs k v :
  Forall (fun kv => P (fst kv) (snd kv)) vs -> lookup k vs = Some v -> P k v.
Proof.
  induction 1 as [|[k' v'] vs H _ IH]; cbn; [discriminate|].
  destruct (Z.eqb_spec k' k); [intros [= <-]; subst; exact H|exact IH].
Qed.

Lemma auto_value_parse_errs {V} (table : Z -> option (tlv -> res V)) b buf E : In ParseError E ->
  (forall ty p t, table ty = Some p -> tlv_ok t -> errs (p t) E) -> bytes_ok buf ->
  errs (auto_value_parse table b buf) E.
Proof.
  intros HE Hp Hb. unfold auto_value_parse. apply tlv_foreach_errs; [assumption| |assumption].
  intros s t Ht. unfold auto_step. destruct (table (t_type t)) as [p|] eqn:E1; [|destruct b; errs_tac fail; assumption].
  destruct (lookup _ s); [apply errs_err; assumption|].
  specialize (Hp _ _ t E1 Ht). destruct (p t) as [v|e]; [apply errs_ok|].
  intros e' H. destruct e; try (apply Hp; congruence).
  destruct b; [discriminate|injection H as <-; assumption].
Qed.

Lemma rmap_ok {A B} (f : A -> B) m v : rmap f m = Ok v <-> exists a, m = Ok a /\ v = f a.
Proof.
  unfold rmap. rewrite bind_ok. split; intros (a & E & H); exists a; split; auto; [apply Ok_inj in H; auto|subst; auto].
Qed.
Lemma rmap_intro {A B} (f : A -> B) m a : m = Ok a -> rmap f m = Ok (f a).
Proof. intros ->. reflexivity. Qed.
Lemma rmap_errs {A B} (f : A -> B) m E : errs m E -> errs (rmap f m) E.
Proof. intros H. unfold rmap. apply errs_bind; [assumption|intros; apply errs_ok]. Qed.

(** * Lists of TLVs *)

Lemma mapM_tlv_ok {A} (enc : A -> res tlv) xs ts :
  (forall a t, In a xs -> enc a = Ok t -> tlv_ok t) -> mapM enc xs = Ok ts -> Forall tlv_ok ts.
Proof.
  intros He H. apply mapM_ok_Forall2 in H. induction H; constructor.
  - eapply He; [left; reflexivity|eassumption].
  - apply IHForall2. intros; eapply He; [right; eassumption|eassumption].
Qed.

Lemma list_fold {A B} (enc : A -> res tlv) (step : list B -> tlv -> res (list B)) (g : A -> B) xs ts acc :
  (forall a t acc, In a xs -> enc a = Ok t -> step acc t = Ok (acc ++ [g a])) ->
  mapM enc xs = Ok ts -> foldM step acc ts = Ok (acc ++ map g xs).
Proof.
  intros Hs H. apply mapM_ok_Forall2 in H. revert acc. induction H as [|a t xs ts E _ IH]; intros acc.
  - cbn. rewrite app_nil_r. reflexivity.
  - cbn [foldM map]. rewrite (Hs a t acc (or_introl eq_refl) E). cbn [bind]. rewrite IH.
    + rewrite <- app_assoc. reflexivity.
    + intros; apply Hs; [right; assumption|assumption].
Qed.

Lemma mapM_map {A B C} (f : B -> res C) (g : A -> B) l : mapM f (map g l) = mapM (fun a => f (g a)) l.
Proof. induction l as [|a l IH]; [reflexivity|]. cbn [map mapM]. rewrite IH. reflexivity. Qed.
Lemma mapM_ext {A B} (f g : A -> res B) l : (forall a, In a l -> f a = g a) -> mapM f l = mapM g l.
Proof.
  induction l as [|a l IH]; intros H; [reflexivity|]. cbn [mapM].
  rewrite (H a (or_introl eq_refl)), IH; [reflexivity|]. intros; apply H; right; assumption.
Qed.

(** * Pointers *)

Lemma ptrs_tlv_ok hs t : ptrs_tlv hs = Ok t ->
  tlv_ok t /\ t_type t = T_PTRS /\ exists l, mapM hashv_tlv hs = Ok l /\ t_val t = wires l.
Proof. unfold ptrs_tlv. intros H. mon. apply tlv_make_tlv_ok in H as (A & B & C). eauto. Qed.

Lemma hashv_tlv_tlv_ok h t : hashv_tlv h = Ok t -> tlv_ok t.
Proof. intros H. apply hashv_tlv_ok in H. tauto. Qed.

Lemma ptrs_roundtrip hs t : ptrs_tlv hs = Ok t -> ptrs_parse t = Ok hs.
Proof.
  intros H. pose proof H as H'. apply ptrs_tlv_ok in H' as (Ho & Ht & l & Hl & Hv).
  unfold ptrs_parse. rewrite Ht, Hv. run.
  rewrite tlv_foreach_wires by (eapply mapM_tlv_ok; [|exact Hl]; intros ? ? _; apply hashv_tlv_tlv_ok).
  rewrite (list_fold hashv_tlv ptrs_step (fun h => h) hs l []); [|intros a u acc _ E|assumption].
  - rewrite map_id. cbn [bind app]. rewrite H. reflexivity.
  - unfold ptrs_step. rewrite (hashv_parse_roundtrip _ _ E). reflexivity.
Qed.

Lemma ptrs_fold_inv l : forall acc hs, foldM ptrs_step acc l = Ok hs ->
  exists hs', hs = acc ++ hs' /\ mapM hashv_tlv hs' = Ok l.
Proof.
  induction l as [|t l IH]; intros acc hs H; cbn [foldM] in H.
  - mon. subst. exists []. rewrite app_nil_r. split; reflexivity.
  - mon. unfold ptrs_step in E. mon. subst. apply IH in H as (hs' & -> & H).
    exists (a0 :: hs'). rewrite <- app_assoc. split; [reflexivity|].
    cbn [mapM]. rewrite (hashv_parse_sound _ _ E0). cbn [bind]. rewrite H. reflexivity.
Qed.

(* an accepted pointer list re-serializes to the very bytes read *)
Lemma ptrs_parse_sound t hs : tlv_ok t -> ptrs_parse t = Ok hs -> ptrs_tlv hs = Ok t.
Proof.
  intros Ho H. unfold ptrs_parse in H. mon. subst.
  destruct (tlv_foreach_inv _ _ _ _ (proj2 (proj2 Ho)) E0) as (l & Hl & Hv & Hf).
  apply ptrs_fold_inv in Hf as (hs' & -> & Hm). cbn [app] in *.
  unfold ptrs_tlv. rewrite Hm. cbn [bind]. rewrite concat_wires_eq, <- Hv.
  replace T_PTRS with (t_type t) by lia. destruct t; apply tlv_make_intro; assumption.
Qed.

Lemma ptrs_parse_errs t : tlv_ok t -> errs (ptrs_parse t) [ValueError; ParseError; OverflowError].
Proof.
  intros Ho. unfold ptrs_parse, ptrs_tlv. errs_tac fail.
  - apply tlv_foreach_errs; [cbn; tauto| |auto]. intros. unfold ptrs_step, hashv_parse.
    errs_tac ltac:(apply hashv_tlv_errs).
  - apply mapM_errs. intros. eapply errs_incl; [apply hashv_tlv_errs|]. intros ? ?; cbn in *; tauto.
Qed.

(** * GroupData *)


Lemma int_tlv_tlv_ok ty n t : int_tlv ty n = Ok t -> tlv_ok t.
Proof. intros H. apply int_tlv_ok in H. tauto. Qed.
#[export] Hint Resolve int_tlv_tlv_ok hashv_tlv_tlv_ok : core.

Lemma gd_tlv_ok g t : gd_tlv g = Ok t ->
  tlv_ok t /\ t_type t = T_GROUP_DATA /\
  exists l1 l2 l3 l4 l5 l6,
    opt_tlvs (int_tlv T_SUBTREE_SIZE) (gd_subtree_size g) l1 /\
    opt_tlvs (htt_tlv T_SUBTREE_DIGEST) (gd_subtree_digest g) l2 /\
    opt_tlvs (int_tlv T_LEAF_SIZE) (gd_leaf_size g) l3 /\
    opt_tlvs (htt_tlv T_LEAF_DIGEST) (gd_leaf_digest g) l4 /\
    opt_tlvs (int_tlv T_NCID) (gd_nc_id g) l5 /\
    opt_tlvs (int_tlv T_START_SEGMENT_ID) (gd_start g) l6 /\
    Forall tlv_ok (l1 ++ l2 ++ l3 ++ l4 ++ l5 ++ l6) /\
    t_val t = wires (l1 ++ l2 ++ l3 ++ l4 ++ l5 ++ l6).
Proof.
  unfold gd_tlv. intros H. mon.
  wopt E l1. wopt E0 l2. wopt E1 l3. wopt E2 l4. wopt E3 l5. wopt E4 l6.
  rewrite F, F0, F1, F2, F3, F4 in H. cbn [flatten] in H. rewrite app_nil_r, <- !wires_app in H.
  apply tlv_make_tlv_ok in H as (A & B & C). split; [assumption|]. split; [assumption|].
  exists l1, l2, l3, l4, l5, l6. repeat (split; [assumption|]). split; [|assumption].
  rewrite !Forall_app. repeat split; (eapply opt_tlvs_ok; [|eassumption]; eauto).
Qed.

Ltac int_fld W := intros ? ? Ha E; split; [apply int_tlv_ok in E; tauto|];
  apply rmap_intro, int_roundtrip; [|assumption]; apply int_tlv_ok in E; split; [tauto|apply W; exact Ha].
Ltac hash_fld := intros ? ? _ E; split; [apply htt_tlv_ok in E; tauto|];
  apply rmap_intro, htt_roundtrip; assumption.
Ltac look := rewrite ?lookup_app, ?lookup_optfld; reflexivity.

Lemma gd_roundtrip g t : gd_wf g -> gd_tlv g = Ok t -> gd_parse t = Ok g.
Proof.
  intros (W1 & W2 & W3 & W4) H. pose proof H as H'.
  apply gd_tlv_ok in H' as (Ho & Ht & l1 & l2 & l3 & l4 & l5 & l6 & O1 & O2 & O3 & O4 & O5 & O6 & Hall & Hv).
  unfold gd_parse, auto_parse, auto_value_parse. rewrite Ht, Hv, Z.eqb_refl. cbn [guard bind].
  rewrite tlv_foreach_wires by assumption. rewrite !foldM_app.
  rewrite (auto_opt gd_table true _ T_SUBTREE_SIZE GInt _ _ _ [] O1 eq_refl); [|int_fld W1|reflexivity].
  cbn [bind]. rewrite ?foldM_app.
  rewrite (auto_opt gd_table true _ T_SUBTREE_DIGEST GHash _ _ _ _ O2 eq_refl); [|hash_fld|look].
  cbn [bind]. rewrite ?foldM_app.
  rewrite (auto_opt gd_table true _ T_LEAF_SIZE GInt _ _ _ _ O3 eq_refl); [|int_fld W2|look].
  cbn [bind]. rewrite ?foldM_app.
  rewrite (auto_opt gd_table true _ T_LEAF_DIGEST GHash _ _ _ _ O4 eq_refl); [|hash_fld|look].
  cbn [bind]. rewrite ?foldM_app.
  rewrite (auto_opt gd_table true _ T_NCID GInt _ _ _ _ O5 eq_refl); [|int_fld W3|look].
  cbn [bind]. rewrite ?foldM_app.
  rewrite (auto_opt gd_table true _ T_START_SEGMENT_ID GInt _ _ _ _ O6 eq_refl); [|int_fld W4|look].
  cbn [bind]. unfold gd_of. rewrite ?lookup_app, ?lookup_optfld.
  destruct g as [a b c d e f]; cbn [gd_subtree_size gd_subtree_digest gd_leaf_size gd_leaf_digest gd_nc_id gd_start] in *.
  assert (mkGD a b c d e f = mkGD (gdv_int (option_map GInt a)) (gdv_hash (option_map GHash b)) (gdv_int (option_map GInt c))
    (gdv_hash (option_map GHash d)) (gdv_int (option_map GInt e)) (gdv_int (option_map GInt f))) as X
    by (destruct a, b, c, d, e, f; reflexivity).
  assert (forall {A} (o : option A), match o with Some v => Some v | None => None end = o) as Y by (intros ? []; reflexivity).
  cbn [Z.eqb Pos.eqb T_SUBTREE_SIZE T_SUBTREE_DIGEST T_LEAF_SIZE T_LEAF_DIGEST T_NCID T_START_SEGMENT_ID lookup].
  rewrite !Y, <- X, H. reflexivity.
Qed.

Lemma opt_id {A} (o : option A) : match o with Some v => Some v | None => None end = o.
Proof. destruct o; reflexivity. Qed.

Lemma gd_tlv_tlv_ok g t : gd_tlv g = Ok t -> tlv_ok t.
Proof. intros H. apply gd_tlv_ok in H. tauto. Qed.
Lemma ptrs_tlv_tlv_ok g t : ptrs_tlv g = Ok t -> tlv_ok t.
Proof. intros H. apply ptrs_tlv_ok in H. tauto. Qed.
#[export] Hint Resolve gd_tlv_tlv_ok ptrs_tlv_tlv_ok : core.

Lemma gd_parse_sound t g : gd_parse t = Ok g -> exists t', gd_tlv g = Ok t'.
Proof. unfold gd_parse. intros H. mon. subst. eauto. Qed.

(** * HashGroup *)


Lemma hg_tlv_ok h t : hg_tlv h = Ok t ->
  tlv_ok t /\ t_type t = T_HASH_GROUP /\
  exists l1 l2, opt_tlvs gd_tlv (hg_data h) l1 /\ opt_tlvs ptrs_tlv (hg_ptrs h) l2 /\
    Forall tlv_ok (l1 ++ l2) /\ t_val t = wires (l1 ++ l2).
Proof.
  unfold hg_tlv. intros H. mon. wopt E l1. wopt E0 l2.
  rewrite F, F0 in H. cbn [flatten] in H. rewrite app_nil_r, <- !wires_app in H.
  apply tlv_make_tlv_ok in H as (A & B & C). split; [assumption|]. split; [assumption|].
  exists l1, l2. repeat (split; [assumption|]). split; [|assumption].
  rewrite !Forall_app. repeat split; (eapply opt_tlvs_ok; [|eassumption]; eauto).
Qed.
Lemma hg_tlv_tlv_ok g t : hg_tlv g = Ok t -> tlv_ok t.
Proof. intros H. apply hg_tlv_ok in H. tauto. Qed.
#[export] Hint Resolve hg_tlv_tlv_ok : core.

Lemma hg_roundtrip h t : hg_wf h -> hg_tlv h = Ok t -> hg_parse t = Ok h.
Proof.
  intros W H. pose proof H as H'.
  apply hg_tlv_ok in H' as (Ho & Ht & l1 & l2 & O1 & O2 & Hall & Hv).
  unfold hg_parse, auto_parse, auto_value_parse. rewrite Ht, Hv, Z.eqb_refl. cbn [guard bind].
  rewrite tlv_foreach_wires by assumption. rewrite !foldM_app.
  rewrite (auto_opt hg_table true _ T_GROUP_DATA HGd _ _ _ [] O1 eq_refl); [| |reflexivity].
  2:{ intros g u Hg E. split; [apply gd_tlv_ok in E; tauto|]. apply rmap_intro, gd_roundtrip; auto. }
  cbn [bind]. rewrite ?foldM_app.
  rewrite (auto_opt hg_table true _ T_PTRS HPtrs _ _ _ _ O2 eq_refl); [| |look].
  2:{ intros g u Hg E. split; [apply ptrs_tlv_ok in E; tauto|]. apply rmap_intro, ptrs_roundtrip; auto. }
  cbn [bind]. unfold hg_of. rewrite ?lookup_app, ?lookup_optfld.
  destruct h as [a b]; cbn [hg_data hg_ptrs] in *.
  assert (mkHG a b = mkHG (hgv_gd (option_map HGd a)) (hgv_ptrs (option_map HPtrs b))) as X
    by (destruct a, b; reflexivity).
  cbn [Z.eqb Pos.eqb T_GROUP_DATA T_PTRS lookup]. rewrite !opt_id, <- X, H. reflexivity.
Qed.

Lemma hg_parse_sound t g : hg_parse t = Ok g -> exists t', hg_tlv g = Ok t'.
Proof. unfold hg_parse. intros H. mon. subst. eauto. Qed.

(** * Locators *)

Lemma link_wire_norm_eq l : link_wire (link_norm l) = link_wire l.
Proof. unfold link_wire, link_norm. cbn [l_name l_keyid l_digest]. rewrite wire_opt_norm. reflexivity. Qed.
Lemma loc_tlv_norm l : loc_tlv (link_norm l) = loc_tlv l.
Proof.
  unfold loc_tlv. rewrite link_wire_norm_eq. unfold link_norm; cbn [l_name]. destruct (l_name l); reflexivity.
Qed.
Definition locs_norm := map link_norm.
Lemma locs_tlv_norm ls : locs_tlv (locs_norm ls) = locs_tlv ls.
Proof.
  unfold locs_tlv, locs_norm. unfold zlen. rewrite map_length, mapM_map, (mapM_ext _ loc_tlv); [reflexivity|].
  intros; apply loc_tlv_norm.
Qed.
Lemma loc_tlv_ok l t : loc_tlv l = Ok t ->
  tlv_ok t /\ t_type t = T_LINK /\ link_wire l = Ok (t_val t) /\ l_name l <> None.
Proof.
  unfold loc_tlv. intros H. mon. apply tlv_make_tlv_ok in H as (A & B & <-).
  repeat (split; [assumption|]). destruct (l_name l); discriminate.
Qed.
Lemma loc_roundtrip l t : loc_tlv l = Ok t -> loc_parse t = Ok (link_norm l).
Proof.
  intros H. pose proof H as H'. apply loc_tlv_ok in H' as (Ho & Ht & Hw & _).
  unfold loc_parse. rewrite Ht. run. rewrite (link_roundtrip _ _ Hw). cbn [bind].
  rewrite loc_tlv_norm, H. reflexivity.
Qed.
Lemma locs_tlv_ok ls t : locs_tlv ls = Ok t ->
  tlv_ok t /\ t_type t = T_LOCATORS /\ ls <> [] /\ exists l, mapM loc_tlv ls = Ok l /\ t_val t = wires l.
Proof.
  unfold locs_tlv. intros H. mon. apply tlv_make_tlv_ok in H as (A & B & C).
  repeat (split; [assumption|]). split; [|eauto]. intros ->. discriminate.
Qed.
Lemma loc_tlv_tlv_ok l t : loc_tlv l = Ok t -> tlv_ok t.
Proof. intros H. apply loc_tlv_ok in H. tauto. Qed.
Lemma locs_tlv_tlv_ok l t : locs_tlv l = Ok t -> tlv_ok t.
Proof. intros H. apply locs_tlv_ok in H. tauto. Qed.
#[export] Hint Resolve loc_tlv_tlv_ok locs_tlv_tlv_ok : core.
Lemma locs_roundtrip ls t : locs_tlv ls = Ok t -> locs_parse t = Ok (locs_norm ls).
Proof.
  intros H. pose proof H as H'. apply locs_tlv_ok in H' as (Ho & Ht & Hn & l & Hl & Hv).
  unfold locs_parse. rewrite Ht, Hv. run.
  rewrite tlv_foreach_wires by (eapply mapM_tlv_ok; [|exact Hl]; eauto).
  rewrite (list_fold loc_tlv locs_step link_norm ls l []); [|intros a u acc _ E|assumption].
  - cbn [bind app]. fold (locs_norm ls). rewrite locs_tlv_norm, H. reflexivity.
  - unfold locs_step. rewrite (loc_roundtrip _ _ E). reflexivity.
Qed.

(** * Schemas *)

Lemma suffix_tlv_ok n t : suffix_tlv n = Ok t ->
  tlv_ok t /\ t_type t = T_SUFFIX_TYPE /\ 0 <= n <= 65535 /\ value_as_number t = n.
Proof.
  unfold suffix_tlv, create_uint16, uint16_to_array. intros H. mon.
  apply array_B_ok in E1 as [Hb ->]. apply tlv_make_tlv_ok in H as (A & B & C).
  repeat (split; [assumption|]). split; [lia|]. unfold value_as_number. rewrite C.
  apply bytes_ok_cons in Hb as [H1 Hb]. apply bytes_ok_cons in Hb as [H2 _].
  rewrite array_to_number_2 by assumption. rewrite land255, shr in * by lia. lia.
Qed.
Lemma suffix_roundtrip n t : suffix_tlv n = Ok t -> suffix_parse t = Ok n.
Proof.
  intros H. pose proof H as H'. apply suffix_tlv_ok in H' as (Ho & Ht & Hn & Hv).
  unfold suffix_parse. rewrite Ht. run. rewrite Hv, H. reflexivity.
Qed.
Lemma suffix_tlv_tlv_ok l t : suffix_tlv l = Ok t -> tlv_ok t.
Proof. intros H. apply suffix_tlv_ok in H. tauto. Qed.
#[export] Hint Resolve suffix_tlv_tlv_ok : core.

Definition schema_norm (s : schema) : schema :=
  match s with
  | SHash ls f => SHash (option_map locs_norm ls) f
  | SPrefix n ls f => SPrefix (option_map name_norm n) (option_map locs_norm ls) f
  | SSeg n x ls f => SSeg (option_map name_norm n) x (option_map locs_norm ls) f
  end.
Lemma wire_opt_locs o : wire_opt locs_tlv (option_map locs_norm o) = wire_opt locs_tlv o.
Proof. destruct o; cbn [option_map wire_opt]; [rewrite locs_tlv_norm|]; reflexivity. Qed.
Lemma schema_tlv_norm s : schema_tlv (schema_norm s) = schema_tlv s.
Proof. destruct s; cbn [schema_tlv schema_norm]; rewrite wire_opt_locs, ?wire_opt_norm; reflexivity. Qed.

Definition schema_type (s : schema) : Z :=
  match s with SHash _ _ => T_HashSchema | SPrefix _ _ _ => T_PrefixSchema | SSeg _ _ _ _ => T_SegmentedSchema end.
Lemma schema_tlv_ok s t : schema_tlv s = Ok t -> tlv_ok t /\ t_type t = schema_type s.
Proof.
  destruct s; cbn [schema_tlv schema_type]; intros H; mon; apply tlv_make_tlv_ok in H; tauto.
Qed.
Lemma schema_tlv_tlv_ok l t : schema_tlv l = Ok t -> tlv_ok t.
Proof. intros H. apply schema_tlv_ok in H. tauto. Qed.
#[export] Hint Resolve schema_tlv_tlv_ok : core.

Ltac name_fld := let X := fresh in intros ? ? _ X; split; [apply name_tlv_ok in X; tauto|];
  apply (rmap_intro SvName), name_roundtrip; assumption.
Ltac locs_fld := let X := fresh in intros ? ? _ X; split; [apply locs_tlv_ok in X; tauto|];
  apply (rmap_intro SvLocs), locs_roundtrip; assumption.

Lemma hash_schema_roundtrip ls f t : schema_tlv (SHash ls f) = Ok t ->
  hash_schema_parse t = Ok (schema_norm (SHash ls f)).
Proof.
  intros H. pose proof H as Hn. rewrite <- schema_tlv_norm in Hn. pose proof H as H'. cbn [schema_tlv] in H'. mon.
  wopt E0 l1. rewrite F in H'. cbn [flatten] in H'. rewrite app_nil_r in H'.
  apply tlv_make_tlv_ok in H' as (Ho & Ht & Hv).
  assert (Hall : Forall tlv_ok l1) by (eapply opt_tlvs_ok; [|eassumption]; eauto).
  unfold hash_schema_parse, auto_parse, auto_value_parse. rewrite Ht, Hv, Z.eqb_refl. cbn [guard bind].
  rewrite tlv_foreach_wires by assumption.
  rewrite (auto_opt hash_table true _ T_LOCATORS (fun l => SvLocs (locs_norm l)) _ _ _ [] O eq_refl); [|locs_fld|reflexivity].
  cbn [bind]. rewrite ?lookup_app, ?lookup_optfld.
  cbn [Z.eqb Pos.eqb T_NAME T_SUFFIX_TYPE T_LOCATORS T_PROTOCOL_FLAGS lookup]. rewrite !opt_id.
  destruct f; [discriminate|].
  assert (schema_norm (SHash ls None) = SHash (sv_locs (option_map (fun l => SvLocs (locs_norm l)) ls)) (sv_flags None)) as X
    by (destruct ls; reflexivity).
  rewrite <- X, Hn. reflexivity.
Qed.
Lemma prefix_schema_roundtrip n ls f t : schema_tlv (SPrefix n ls f) = Ok t ->
  prefix_schema_parse t = Ok (schema_norm (SPrefix n ls f)).
Proof.
  intros H. pose proof H as Hn. rewrite <- schema_tlv_norm in Hn. pose proof H as H'. cbn [schema_tlv] in H'. mon.
  wopt E0 l1. wopt E1 l2. rewrite F, F0 in H'. cbn [flatten] in H'. rewrite app_nil_r, <- wires_app in H'.
  apply tlv_make_tlv_ok in H' as (Ho & Ht & Hv).
  assert (Hall : Forall tlv_ok (l1 ++ l2)).
  { rewrite !Forall_app. repeat split; (eapply opt_tlvs_ok; [|eassumption]; eauto). }
  unfold prefix_schema_parse, auto_parse, auto_value_parse. rewrite Ht, Hv, Z.eqb_refl. cbn [guard bind].
  rewrite tlv_foreach_wires by assumption. rewrite ?foldM_app.
  rewrite (auto_opt prefix_table true _ T_NAME (fun l => SvName (name_norm l)) _ _ _ [] O eq_refl); [|name_fld|reflexivity].
  cbn [bind]. rewrite ?foldM_app.
  rewrite (auto_opt prefix_table true _ T_LOCATORS (fun l => SvLocs (locs_norm l)) _ _ _ _ O0 eq_refl); [|locs_fld|look].
  cbn [bind]. rewrite ?lookup_app, ?lookup_optfld.
  cbn [Z.eqb Pos.eqb T_NAME T_SUFFIX_TYPE T_LOCATORS T_PROTOCOL_FLAGS lookup]. rewrite !opt_id.
  destruct f; [discriminate|].
  assert (schema_norm (SPrefix n ls None) = SPrefix (sv_name (option_map (fun l => SvName (name_norm l)) n))
      (sv_locs (option_map (fun l => SvLocs (locs_norm l)) ls)) (sv_flags None)) as X
    by (destruct n, ls; reflexivity).
  rewrite <- X, Hn. reflexivity.
Qed.
Lemma seg_schema_roundtrip n x ls f t : schema_tlv (SSeg n x ls f) = Ok t ->
  seg_schema_parse t = Ok (schema_norm (SSeg n x ls f)).
Proof.
  intros H. pose proof H as Hn. rewrite <- schema_tlv_norm in Hn. pose proof H as H'. cbn [schema_tlv] in H'. mon.
  wopt E0 l1. wopt E1 l2. wopt E2 l3. rewrite F, F0, F1 in H'. cbn [flatten] in H'. rewrite app_nil_r, <- !wires_app in H'.
  apply tlv_make_tlv_ok in H' as (Ho & Ht & Hv).
  assert (Hall : Forall tlv_ok (l1 ++ l2 ++ l3)).
  { rewrite !Forall_app. repeat split; (eapply opt_tlvs_ok; [|eassumption]; eauto). }
  unfold seg_schema_parse, auto_parse, auto_value_parse. rewrite Ht, Hv, Z.eqb_refl. cbn [guard bind].
  rewrite tlv_foreach_wires by assumption. rewrite ?foldM_app.
  rewrite (auto_opt seg_table true _ T_NAME (fun l => SvName (name_norm l)) _ _ _ [] O eq_refl); [|name_fld|reflexivity].
  cbn [bind]. rewrite ?foldM_app.
  rewrite (auto_opt seg_table true _ T_SUFFIX_TYPE SvSuffix _ _ _ _ O0 eq_refl); [| |look].
  2:{ intros ? ? _ E3; split; [apply suffix_tlv_ok in E3; tauto|]. apply rmap_intro, suffix_roundtrip; assumption. }
  cbn [bind]. rewrite ?foldM_app.
  rewrite (auto_opt seg_table true _ T_LOCATORS (fun l => SvLocs (locs_norm l)) _ _ _ _ O1 eq_refl); [|locs_fld|look].
  cbn [bind]. rewrite ?lookup_app, ?lookup_optfld.
  cbn [Z.eqb Pos.eqb T_NAME T_SUFFIX_TYPE T_LOCATORS T_PROTOCOL_FLAGS lookup]. rewrite !opt_id.
  destruct f; [discriminate|].
  assert (schema_norm (SSeg n x ls None) = SSeg (sv_name (option_map (fun l => SvName (name_norm l)) n))
      (sv_suffix (option_map SvSuffix x)) (sv_locs (option_map (fun l => SvLocs (locs_norm l)) ls)) (sv_flags None)) as X
    by (destruct n, x, ls; reflexivity).
  rewrite <- X, Hn. reflexivity.
Qed.
Lemma schema_roundtrip s t : schema_tlv s = Ok t -> schema_parse t = Ok (schema_norm s).
Proof.
  intros H. pose proof (schema_tlv_ok _ _ H) as (_ & Ht). unfold schema_parse.
  destruct s; cbn [schema_type] in Ht.
  - unfold prefix_schema_parse, seg_schema_parse, auto_parse. rewrite Ht. cbn [guard bind try_else].
    change (T_HashSchema =? T_PrefixSchema) with false. change (T_HashSchema =? T_SegmentedSchema) with false.
    cbn [guard bind try_else]. rewrite (hash_schema_roundtrip _ _ _ H). reflexivity.
  - rewrite (prefix_schema_roundtrip _ _ _ _ H). reflexivity.
  - unfold prefix_schema_parse, auto_parse. rewrite Ht.
    change (T_SegmentedSchema =? T_PrefixSchema) with false.
    cbn [guard bind try_else]. rewrite (seg_schema_roundtrip _ _ _ _ _ H). reflexivity.
Qed.

(** * NcDef *)

Definition ncdef_norm (d : ncdef) : ncdef := mkNcDef (nd_id d) (option_map schema_norm (nd_schema d)).
Lemma ncdef_tlv_norm d : ncdef_tlv (ncdef_norm d) = ncdef_tlv d.
Proof.
  unfold ncdef_tlv, ncdef_norm; cbn [nd_id nd_schema]. destruct (nd_schema d); cbn [option_map wire_opt];
  [rewrite schema_tlv_norm|]; reflexivity.
Qed.
Lemma ncdef_tlv_ok d t : ncdef_tlv d = Ok t ->
  tlv_ok t /\ t_type t = T_NCDEF /\
  exists l1 l2, opt_tlvs (int_tlv T_NCID) (nd_id d) l1 /\ opt_tlvs schema_tlv (nd_schema d) l2 /\
    Forall tlv_ok (l1 ++ l2) /\ t_val t = wires (l1 ++ l2).
Proof.
  unfold ncdef_tlv. intros H. mon. wopt E l1. wopt E0 l2.
  rewrite F, F0 in H. cbn [flatten] in H. rewrite app_nil_r, <- !wires_app in H.
  apply tlv_make_tlv_ok in H as (A & B & C). split; [assumption|]. split; [assumption|].
  exists l1, l2. repeat (split; [assumption|]). split; [|assumption].
  rewrite !Forall_app. repeat split; (eapply opt_tlvs_ok; [|eassumption]; eauto).
Qed.
Lemma ncdef_tlv_tlv_ok l t : ncdef_tlv l = Ok t -> tlv_ok t.
Proof. intros H. apply ncdef_tlv_ok in H. tauto. Qed.
#[export] Hint Resolve ncdef_tlv_tlv_ok : core.
Lemma ncdef_roundtrip d t : ncdef_wf d -> ncdef_tlv d = Ok t -> ncdef_parse t = Ok (ncdef_norm d).
Proof.
  intros W H. pose proof H as Hn. rewrite <- ncdef_tlv_norm in Hn. pose proof H as H'.
  apply ncdef_tlv_ok in H' as (Ho & Ht & l1 & l2 & O1 & O2 & Hall & Hv).
  unfold ncdef_parse. rewrite Ht, Hv, Z.eqb_refl. cbn [guard bind].
  rewrite tlv_foreach_wires by assumption. rewrite ?foldM_app.
  assert (foldM ncdef_step (mkNcDef None None) l1 = Ok (mkNcDef (nd_id d) None)) as ->.
  { destruct (nd_id d) as [n|] eqn:En; cbn [opt_tlvs] in O1; [|subst; reflexivity].
    destruct O1 as (u & E & ->). pose proof (int_tlv_ok _ _ _ E) as Hu.
    cbn [foldM]. unfold ncdef_step. replace (t_type u) with T_NCID by (symmetry; tauto).
    cbn [Z.eqb Pos.eqb T_NCID is_none nd_id nd_schema guard bind].
    change (int_parse 5 u) with (int_parse T_NCID u). rewrite (int_roundtrip T_NCID n u).
    reflexivity. split; [tauto|]. apply W. assumption. assumption. }
  cbn [bind]. rewrite ?foldM_app.
  assert (foldM ncdef_step (mkNcDef (nd_id d) None) l2 = Ok (ncdef_norm d)) as ->.
  { unfold ncdef_norm. destruct (nd_schema d) as [s|] eqn:En; cbn [opt_tlvs] in O2; [|subst; reflexivity].
    destruct O2 as (u & E & ->). pose proof (schema_tlv_ok _ _ E) as (_ & Hu).
    cbn [foldM]. unfold ncdef_step. rewrite Hu.
    replace (schema_type s =? T_NCID) with false by (destruct s; reflexivity).
    cbn [is_none nd_id nd_schema guard bind]. rewrite (schema_roundtrip _ _ E). reflexivity. }
  cbn [bind]. rewrite Hn. reflexivity.
Qed.

(** * Vendor *)

Lemma vendor_tlv_ok v t : vendor_tlv v = Ok t ->
  tlv_ok t /\ t_type t = T_ORG /\ ztake 3 (t_val t) = [v_pen v / 65536; v_pen v / 256 mod 256; v_pen v mod 256] /\
  zskip 3 (t_val t) = v_payload v /\ 0 <= v_pen v < 2 ^ 24.
Proof.
  unfold vendor_tlv, uint24_to_array. intros H. mon.
  apply array_B_ok in E0 as [Hb ->]. apply array_B_ok in E1 as [Hp ->].
  apply tlv_make_tlv_ok in H as (A & B & C). repeat (split; [assumption|]).
  rewrite C, ztake_app, zskip_app by reflexivity. rewrite !land255, !shr by lia.
  split; [reflexivity|]. split; [reflexivity|]. lia.
Qed.
Lemma vendor_tlv_tlv_ok l t : vendor_tlv l = Ok t -> tlv_ok t.
Proof. intros H. apply vendor_tlv_ok in H. tauto. Qed.
#[export] Hint Resolve vendor_tlv_tlv_ok : core.
Lemma vendor_roundtrip v t : vendor_tlv v = Ok t -> vendor_parse t = Ok v.
Proof.
  intros H. pose proof H as H'. apply vendor_tlv_ok in H' as (Ho & Ht & H1 & H2 & Hb).
  unfold vendor_parse. rewrite Ht. run.
  replace (tlv_len t <? 3) with false by (pose proof (tlv_len_ge t); lia). cbn [negb guard bind].
  assert (mkVendor (array_to_number (ztake 3 (t_val t))) (zskip 3 (t_val t)) = v) as ->.
  { destruct v as [p b]; cbn [v_pen v_payload] in *. f_equal; [|assumption]. rewrite H1.
    rewrite array_to_number_be; [|repeat constructor; unfold is_byte; lia]. cbn [be_acc fold_left]. cbn. lia. }
  rewrite H. reflexivity.
Qed.

(** * NodeData *)

Definition nd_norm (d : ndata) : ndata :=
  mkND (nd_size d) (nd_digest d) (option_map locs_norm (nd_locators d)) (nd_vendors d)
    (map ncdef_norm (nd_ncdefs d)).
Lemma nd_tlv_norm d : nd_tlv (nd_norm d) = nd_tlv d.
Proof.
  unfold nd_tlv, nd_norm. cbn [nd_size nd_digest nd_locators nd_vendors nd_ncdefs].
  rewrite wire_opt_locs, mapM_map, (mapM_ext _ ncdef_tlv); [reflexivity|]. intros; apply ncdef_tlv_norm.
Qed.
Lemma nd_tlv_ok d t : nd_tlv d = Ok t ->
  tlv_ok t /\ t_type t = T_NODE_DATA /\
  exists l1 l2 l3 l4 l5, opt_tlvs (int_tlv T_SUBTREE_SIZE) (nd_size d) l1 /\
    opt_tlvs (htt_tlv T_SUBTREE_DIGEST) (nd_digest d) l2 /\
    opt_tlvs locs_tlv (nd_locators d) l3 /\
    mapM ncdef_tlv (nd_ncdefs d) = Ok l4 /\ mapM vendor_tlv (nd_vendors d) = Ok l5 /\
    Forall tlv_ok (l1 ++ l2 ++ l3 ++ l4 ++ l5) /\ t_val t = wires (l1 ++ l2 ++ l3 ++ l4 ++ l5).
Proof.
  unfold nd_tlv. intros H. mon. wopt E l1. wopt E0 l2. wopt E1 l3.
  change concat_wires with wires in H. rewrite F, F0, F1, !flatten_some in H.
  cbn [flatten] in H. rewrite app_nil_r, <- !wires_app in H.
  apply tlv_make_tlv_ok in H as (A & B & C). split; [assumption|]. split; [assumption|].
  eexists l1, l2, l3, _, _. repeat (split; [eassumption|]). split; [|assumption].
  rewrite !Forall_app. repeat split; try (eapply opt_tlvs_ok; [|eassumption]; solve [eauto]);
  (eapply mapM_tlv_ok; [|eassumption]; eauto).
Qed.
Lemma nd_tlv_tlv_ok l t : nd_tlv l = Ok t -> tlv_ok t.
Proof. intros H. apply nd_tlv_ok in H. tauto. Qed.
#[export] Hint Resolve nd_tlv_tlv_ok : core.

(* folding over a list of TLVs with a state whose component is appended to *)
Lemma list_foldS {A B S} (enc : A -> res tlv) (step : S -> tlv -> res S) (g : A -> B) (st : list B -> S) xs ts acc :
  (forall a t acc, In a xs -> enc a = Ok t -> step (st acc) t = Ok (st (acc ++ [g a]))) ->
  mapM enc xs = Ok ts -> foldM step (st acc) ts = Ok (st (acc ++ map g xs)).
Proof.
  intros Hs H. apply mapM_ok_Forall2 in H. revert acc. induction H as [|a t xs ts E _ IH]; intros acc.
  - cbn. rewrite app_nil_r. reflexivity.
  - cbn [foldM map]. rewrite (Hs a t acc (or_introl eq_refl) E). cbn [bind]. rewrite IH.
    + rewrite <- app_assoc. reflexivity.
    + intros; apply Hs; [right; assumption|assumption].
Qed.
Lemma opt_fold {A S} (enc : A -> res tlv) (step : S -> tlv -> res S) o l s s' :
  opt_tlvs enc o l -> (o = None -> s' = s) ->
  (forall a t, o = Some a -> enc a = Ok t -> step s t = Ok s') -> foldM step s l = Ok s'.
Proof.
  intros Ho Hn Hs. destruct o as [a|]; cbn [opt_tlvs] in Ho.
  - destruct Ho as (t & E & ->). cbn [foldM]. rewrite (Hs a t eq_refl E). reflexivity.
  - subst. rewrite Hn by reflexivity. reflexivity.
Qed.

Ltac nd_go := unfold nd_step; cbn [nd_size nd_digest nd_locators nd_vendors nd_ncdefs is_none guard bind].

Lemma nd_roundtrip d t : nd_wf d -> nd_tlv d = Ok t -> nd_parse t = Ok (nd_norm d).
Proof.
  intros (W1 & W2) H. pose proof H as Hn. rewrite <- nd_tlv_norm in Hn. pose proof H as H'.
  apply nd_tlv_ok in H' as (Ho & Ht & l1 & l2 & l3 & l4 & l5 & O1 & O2 & O3 & M4 & M5 & Hall & Hv).
  unfold nd_parse. rewrite Ht, Hv, Z.eqb_refl. cbn [guard bind].
  rewrite tlv_foreach_wires by assumption. rewrite ?foldM_app.
  rewrite (opt_fold _ nd_step _ _ _ (mkND (nd_size d) None None [] []) O1).
  2:{ intros ->; reflexivity. }
  2:{ intros n u Hu E. pose proof (int_tlv_ok _ _ _ E) as X. nd_go.
      replace (t_type u) with T_SUBTREE_SIZE by (symmetry; tauto). rewrite Z.eqb_refl.
      rewrite (int_roundtrip _ n); [|split; [tauto|apply W1; exact Hu]|assumption]. rewrite Hu. reflexivity. }
  cbn [bind]. rewrite ?foldM_app.
  rewrite (opt_fold _ nd_step _ _ _ (mkND (nd_size d) (nd_digest d) None [] []) O2).
  2:{ intros ->; reflexivity. }
  2:{ intros n u Hu E. pose proof (htt_tlv_ok _ _ _ E) as X. nd_go.
      replace (t_type u) with T_SUBTREE_DIGEST by (symmetry; tauto).
      change (T_SUBTREE_DIGEST =? T_SUBTREE_SIZE) with false. rewrite Z.eqb_refl.
      rewrite (htt_roundtrip _ _ _ E). rewrite Hu. reflexivity. }
  cbn [bind]. rewrite ?foldM_app.
  rewrite (opt_fold _ nd_step _ _ _ (mkND (nd_size d) (nd_digest d) (option_map locs_norm (nd_locators d)) [] []) O3).
  2:{ intros ->; reflexivity. }
  2:{ intros n u Hu E. pose proof (locs_tlv_ok _ _ E) as X. nd_go.
      replace (t_type u) with T_LOCATORS by (symmetry; tauto).
      change (T_LOCATORS =? T_SUBTREE_SIZE) with false. change (T_LOCATORS =? T_SUBTREE_DIGEST) with false. rewrite Z.eqb_refl.
      rewrite (locs_roundtrip _ _ E). rewrite Hu. reflexivity. }
  cbn [bind]. rewrite ?foldM_app.
  rewrite (list_foldS ncdef_tlv nd_step ncdef_norm
    (fun l => mkND (nd_size d) (nd_digest d) (option_map locs_norm (nd_locators d)) [] l) (nd_ncdefs d) l4 []); [| |assumption].
  2:{ intros a u acc Hin E. pose proof (ncdef_tlv_ok _ _ E) as (_ & Hu & _). nd_go. rewrite Hu.
      change (T_NCDEF =? T_SUBTREE_SIZE) with false. change (T_NCDEF =? T_SUBTREE_DIGEST) with false.
      change (T_NCDEF =? T_LOCATORS) with false. rewrite Z.eqb_refl.
      rewrite (ncdef_roundtrip _ _ (proj1 (Forall_forall _ _) W2 _ Hin) E). reflexivity. }
  cbn [bind app]. rewrite ?foldM_app.
  rewrite (list_foldS vendor_tlv nd_step (fun v => v)
    (fun l => mkND (nd_size d) (nd_digest d) (option_map locs_norm (nd_locators d)) l (map ncdef_norm (nd_ncdefs d))) (nd_vendors d) l5 []); [| |assumption].
  2:{ intros a u acc Hin E. pose proof (vendor_tlv_ok _ _ E) as (_ & Hu & _). nd_go. rewrite Hu.
      change (T_ORG =? T_SUBTREE_SIZE) with false. change (T_ORG =? T_SUBTREE_DIGEST) with false.
      change (T_ORG =? T_LOCATORS) with false. change (T_ORG =? T_NCDEF) with false. rewrite Z.eqb_refl.
      rewrite (vendor_roundtrip _ _ E). reflexivity. }
  rewrite map_id. cbn [bind app]. fold (nd_norm d). rewrite Hn. reflexivity.
Qed.

(** * Node *)

Definition node_norm (n : node) : node := mkNode (option_map nd_norm (n_data n)) (n_groups n) None.

Lemma pad_tlv_ok n t : pad_tlv n = Ok t ->
  tlv_ok t /\ t_type t = T_PAD /\ 0 <= n /\ zlen (t_val t) = n.
Proof.
  unfold pad_tlv, octet_tlv. intros H. mon. apply tlv_make_tlv_ok in H as (A & B & C).
  repeat (split; [assumption|]). split; [lia|]. rewrite C. unfold zlen. rewrite repeat_length. lia.
Qed.
Lemma wire_opt_nd o : wire_opt nd_tlv (option_map nd_norm o) = wire_opt nd_tlv o.
Proof. destruct o; cbn [option_map wire_opt]; [rewrite nd_tlv_norm|]; reflexivity. Qed.

(* the value of a node: data, groups, then possibly one Pad *)
Lemma node_value_ok n v : node_value n = Ok v ->
  exists l1 l2 l3, opt_tlvs nd_tlv (n_data n) l1 /\ mapM hg_tlv (n_groups n) = Ok l2 /\
    Forall tlv_ok (l1 ++ l2 ++ l3) /\ v = wires (l1 ++ l2 ++ l3) /\
    (l3 = [] \/ exists p u, l3 = [u] /\ pad_tlv p = Ok u) /\
    match n_pad n with
    | None => l3 = []
    | Some pl =>
      let len := 4 + zlen (wires (l1 ++ l2)) in
      if len + 4 <=? pl then 4 + zlen v = pl else l3 = []
    end.
Proof.
  unfold node_value. intros H. inv_bind H. inv_bind H. wopt E l1.
  change concat_wires with wires in H.
  assert (Hall : Forall tlv_ok (l1 ++ a0)).
  { rewrite Forall_app. split; [eapply opt_tlvs_ok; [|eassumption]; eauto|eapply mapM_tlv_ok; [|eassumption]; eauto]. }
  assert (Hw : flatten [a; Some (wires a0)] = wires (l1 ++ a0 ++ [])).
  { rewrite F, flatten_some. cbn [flatten]. rewrite !app_nil_r, wires_app. reflexivity. }
  rewrite Hw in H.
  destruct (n_pad n) as [pl|].
  - destruct (4 <=? pl - (4 + zlen (wires (l1 ++ a0 ++ [])))) eqn:Ed.
    + mon. subst v. destruct (pad_tlv_ok _ _ E) as (Ho & Ht & Hp & Hz).
      exists l1, a0, [a1]. repeat (split; [first [assumption|reflexivity]|]).
      rewrite app_nil_r in *. split; [rewrite app_assoc, Forall_app; auto|].
      assert (flatten [a; Some (wires a0); Some (tlv_wire a1)] = wires (l1 ++ a0 ++ [a1])) as ->.
      { rewrite F, flatten_some. cbn [flatten]. rewrite app_nil_r, !wires_app, wires_one. reflexivity. }
      split; [reflexivity|]. split; [right; eauto|].
      replace (4 + zlen (wires (l1 ++ a0)) + 4 <=? pl) with true by lia.
      rewrite app_assoc, wires_app, zlen_app, wires_one, zlen_tlv_wire. unfold tlv_len, tlv_length. lia.
    + mon. subst v. exists l1, a0, []. repeat (split; [first [assumption|reflexivity|left; reflexivity]|]).
      rewrite app_nil_r in *. split; [assumption|]. split; [rewrite wires_app, ?app_nil_r; reflexivity|].
      split; [left; reflexivity|]. replace (4 + zlen (wires (l1 ++ a0)) + 4 <=? pl) with false by lia. reflexivity.
  - mon. subst v. exists l1, a0, []. repeat (split; [first [assumption|reflexivity]|]).
    rewrite app_nil_r in *. auto.
Qed.

Lemma node_tlv_ok n t : node_tlv n = Ok t ->
  tlv_ok t /\ t_type t = T_NODE /\ n_groups n <> [] /\ node_value n = Ok (t_val t).
Proof.
  unfold node_tlv. intros H. mon. apply tlv_make_tlv_ok in H as (A & B & C).
  repeat (split; [assumption|]). split; [|subst; assumption]. intros X. rewrite X in E. discriminate.
Qed.
Lemma node_tlv_tlv_ok l t : node_tlv l = Ok t -> tlv_ok t.
Proof. intros H. apply node_tlv_ok in H. tauto. Qed.
#[export] Hint Resolve node_tlv_tlv_ok : core.

Lemma bytes_ok_wires l : Forall tlv_ok l -> bytes_ok (wires l).
Proof.
  induction 1 as [|t l H _ IH]; [constructor|]. rewrite wires_cons, bytes_ok_app. split; [|assumption].
  apply tlv_wire_ok. assumption.
Qed.

(* the unpadded node *)
Definition unpad (n : node) : node := mkNode (n_data n) (n_groups n) None.
Lemma node_norm_unpad n : node_tlv (node_norm n) = node_tlv (unpad n).
Proof.
  unfold node_tlv, node_value, node_norm, unpad. cbn [n_data n_groups n_pad]. rewrite wire_opt_nd. reflexivity.
Qed.
Lemma unpad_tlv n t : node_tlv n = Ok t -> exists t', node_tlv (unpad n) = Ok t'.
Proof.
  intros H. apply node_tlv_ok in H as (Ho & Ht & Hg & Hv).
  pose proof (node_value_ok _ _ Hv) as (l1 & l2 & l3 & O1 & M2 & Hall & Hw & _).
  unfold node_tlv, unpad. cbn [n_data n_groups n_pad].
  replace (zlen (n_groups n) =? 0) with false by (destruct (n_groups n); [congruence|rewrite zlen_cons; pose proof (zlen_nonneg l); lia]).
  cbn [negb guard bind]. unfold node_value. cbn [n_data n_groups n_pad].
  apply wire_opt_intro in O1 as (w1 & -> & F1). cbn [bind]. rewrite M2. cbn [bind].
  change concat_wires with wires. rewrite F1, flatten_some. cbn [flatten]. rewrite app_nil_r, <- wires_app.
  rewrite app_assoc, Forall_app in Hall. destruct Hall as [Hall _].
  exists (mkTlv T_NODE (wires (l1 ++ l2))). apply tlv_make_intro. destruct Ho as (Ho1 & Ho2 & Ho3).
  unfold tlv_ok. cbn [t_type t_val] in *. rewrite Ht in *. split; [assumption|]. split.
  - rewrite app_assoc, wires_app in Hw. unfold tlv_length in *. cbn [t_val]. rewrite Hw, zlen_app in Ho2.
    pose proof (zlen_nonneg (wires l3)). pose proof (zlen_nonneg (wires (l1 ++ l2))). lia.
  - apply bytes_ok_wires; assumption.
Qed.

(* parsing gives the node without its padding *)
Lemma node_roundtrip n t : node_wf n -> node_tlv n = Ok t -> node_parse t = Ok (node_norm n).
Proof.
  intros (W1 & W2) H. destruct (unpad_tlv _ _ H) as (t' & Hn). rewrite <- node_norm_unpad in Hn.
  apply node_tlv_ok in H as (Ho & Ht & Hg & Hv).
  apply node_value_ok in Hv as (l1 & l2 & l3 & O1 & M2 & Hall & Hw & Hl3 & _).
  unfold node_parse. rewrite Ht, Hw, Z.eqb_refl. cbn [guard bind].
  rewrite tlv_foreach_wires by assumption. rewrite ?foldM_app.
  rewrite (opt_fold _ node_step _ _ _ (option_map nd_norm (n_data n), []) O1).
  2:{ intros ->; reflexivity. }
  2:{ intros d u Hu E. pose proof (nd_tlv_ok _ _ E) as (_ & X & _). unfold node_step.
      rewrite X, Z.eqb_refl. cbn [fst snd is_none guard bind].
      rewrite (nd_roundtrip _ _ (W1 _ Hu) E), Hu. reflexivity. }
  cbn [bind]. rewrite ?foldM_app.
  rewrite (list_foldS hg_tlv node_step (fun h => h) (fun l => (option_map nd_norm (n_data n), l)) (n_groups n) l2 []); [| |assumption].
  2:{ intros a u acc Hin E. pose proof (hg_tlv_ok _ _ E) as (_ & X & _). unfold node_step. rewrite X.
      change (T_HASH_GROUP =? T_NODE_DATA) with false. rewrite Z.eqb_refl.
      rewrite (hg_roundtrip _ _ (proj1 (Forall_forall _ _) W2 _ Hin) E). reflexivity. }
  cbn [bind app]. rewrite map_id.
  assert (foldM node_step (option_map nd_norm (n_data n), n_groups n) l3 = Ok (option_map nd_norm (n_data n), n_groups n)) as ->.
  { destruct Hl3 as [->|(p & u & -> & E)]; [reflexivity|]. apply pad_tlv_ok in E as (_ & X & _).
    cbn [foldM]. unfold node_step. rewrite X. reflexivity. }
  cbn [bind fst snd]. fold (node_norm n). rewrite Hn. reflexivity.
Qed.

(** * Security contexts *)

Lemma octet_tlv_ok ty b t : octet_tlv ty b = Ok t -> tlv_ok t /\ t_type t = ty /\ t_val t = b.
Proof. unfold octet_tlv. apply tlv_make_tlv_ok. Qed.
Lemma octet_tlv_tlv_ok ty b t : octet_tlv ty b = Ok t -> tlv_ok t.
Proof. intros H. apply octet_tlv_ok in H. tauto. Qed.
#[export] Hint Resolve octet_tlv_tlv_ok : core.

Lemma kdf_tlv_ok k t : kdf_tlv k = Ok t ->
  tlv_ok t /\ t_type t = T_KDF_DATA /\
  exists l1 l2, opt_tlvs (int_tlv T_KDF_ALG) (Some (k_alg k)) l1 /\ opt_tlvs (octet_tlv T_KDF_INFO) (k_info k) l2 /\
    Forall tlv_ok (l1 ++ l2) /\ t_val t = wires (l1 ++ l2).
Proof.
  unfold kdf_tlv. intros H. mon. wopt E0 l2.
  rewrite flatten_some, F in H. cbn [flatten] in H. rewrite app_nil_r, <- wires_one, <- !wires_app in H.
  apply tlv_make_tlv_ok in H as (A & B & C). split; [assumption|]. split; [assumption|].
  exists [a], l2. split; [cbn; eauto|]. split; [assumption|]. split; [|assumption].
  rewrite Forall_app. split; [constructor; [eauto|constructor]|]. eapply opt_tlvs_ok; [|eassumption]; eauto.
Qed.
Lemma kdf_tlv_tlv_ok k t : kdf_tlv k = Ok t -> tlv_ok t.
Proof. intros H. apply kdf_tlv_ok in H. tauto. Qed.
#[export] Hint Resolve kdf_tlv_tlv_ok : core.

Ltac oct_fld := let X := fresh in intros ? ? _ X; split; [apply octet_tlv_ok in X; tauto|];
  apply rmap_intro, octet_roundtrip; assumption.
Ltac int_fldb tac := let X := fresh in let Y := fresh in intros ? ? Y X; split; [apply int_tlv_ok in X; tauto|];
  apply rmap_intro, int_roundtrip; [|assumption]; apply int_tlv_ok in X; split; [tauto|tac Y].

Lemma kdf_roundtrip k t : kdf_wf k -> kdf_tlv k = Ok t -> kdf_parse t = Ok k.
Proof.
  intros W H. pose proof H as H'.
  apply kdf_tlv_ok in H' as (Ho & Ht & l1 & l2 & O1 & O2 & Hall & Hv).
  unfold kdf_parse, auto_parse, auto_value_parse. rewrite Ht, Hv, Z.eqb_refl. cbn [guard bind].
  rewrite tlv_foreach_wires by assumption. rewrite !foldM_app.
  rewrite (auto_opt kdf_table true _ T_KDF_ALG KInt _ _ _ [] O1 eq_refl);
    [|int_fldb ltac:(fun Y => injection Y as <-; exact W)|reflexivity].
  cbn [bind]. rewrite ?foldM_app.
  rewrite (auto_opt kdf_table true _ T_KDF_INFO KOct _ _ _ _ O2 eq_refl); [|oct_fld|look].
  cbn [bind]. rewrite ?lookup_app, ?lookup_optfld.
  cbn [Z.eqb Pos.eqb T_KDF_ALG T_KDF_INFO lookup option_map]. rewrite !opt_id. cbn [kv_int].
  assert (k = mkKdf (k_alg k) (kv_oct (option_map KOct (k_info k)))) as X
    by (destruct k as [a [i|]]; reflexivity).
  rewrite <- X, H. reflexivity.
Qed.


(* the fields of the context as a list of TLVs *)
Definition aead_tlvs (a : aead) (l : list tlv) : Prop :=
  exists l1 l2 l3 l4,
    opt_tlvs (int_tlv T_KEYNUM) (Some (a_keynum a)) l1 /\ opt_tlvs (octet_tlv T_NONCE) (Some (a_nonce a)) l2 /\
    opt_tlvs (int_tlv T_AEADMode) (a_mode a) l3 /\ opt_tlvs kdf_tlv (a_kdf a) l4 /\
    Forall tlv_ok l /\ l = l1 ++ l2 ++ l3 ++ l4.
Lemma aead_wire_ok a w : aead_wire a = Ok w -> exists l, aead_tlvs a l /\ w = wires l.
Proof.
  unfold aead_wire. intros H. mon. subst. wopt E1 l3. wopt E2 l4.
  exists ([a0] ++ [a1] ++ l3 ++ l4). split.
  - exists [a0], [a1], l3, l4. do 4 (split; [first [assumption|cbn; solve [eauto]]|]). split; [|reflexivity].
    rewrite !Forall_app. repeat split; try (constructor; [solve [eauto]|constructor]); (eapply opt_tlvs_ok; [|eassumption]; eauto).
  - rewrite !flatten_some, F, F0. cbn [flatten]. rewrite !wires_app, !wires_one, app_nil_r. reflexivity.
Qed.

(* the AEAD parser skips what it does not know *)
Lemma aead_roundtrip a l extra w : aead_wf a -> aead_wire a = Ok w -> aead_tlvs a l ->
  Forall tlv_ok extra -> Forall (fun t => aead_table (t_type t) = None) extra ->
  aead_parse (wires (l ++ extra)) = Ok a.
Proof.
  intros (W1 & W2 & W3) H (l1 & l2 & l3 & l4 & O1 & O2 & O3 & O4 & Hall & ->) Hx Hs.
  unfold aead_parse, auto_value_parse.
  rewrite tlv_foreach_wires by (rewrite Forall_app; auto). rewrite <- !app_assoc, ?foldM_app.
  rewrite (auto_opt aead_table true _ T_KEYNUM AInt _ _ _ [] O1 eq_refl);
    [|int_fldb ltac:(fun Y => injection Y as <-; exact W1)|reflexivity].
  cbn [bind]. rewrite ?foldM_app.
  rewrite (auto_opt aead_table true _ T_NONCE AOct _ _ _ _ O2 eq_refl); [|oct_fld|look].
  cbn [bind]. rewrite ?foldM_app.
  rewrite (auto_opt aead_table true _ T_AEADMode AInt _ _ _ _ O3 eq_refl);
    [|int_fldb ltac:(fun Y => apply W2; exact Y)|look].
  cbn [bind]. rewrite ?foldM_app.
  rewrite (auto_opt aead_table true _ T_KDF_DATA AKdf _ _ _ _ O4 eq_refl); [| |look].
  2:{ intros k u Hk E. split; [apply kdf_tlv_ok in E; tauto|]. apply rmap_intro, kdf_roundtrip; auto. }
  cbn [bind]. rewrite auto_skip by assumption. cbn [bind]. rewrite ?lookup_app, ?lookup_optfld.
  cbn [Z.eqb Pos.eqb T_KEYNUM T_NONCE T_AEADMode T_KDF_DATA lookup option_map]. rewrite !opt_id. cbn [av_int av_oct].
  assert (a = mkAead (a_keynum a) (a_nonce a) (av_int (option_map AInt (a_mode a))) (av_kdf (option_map AKdf (a_kdf a)))) as X
    by (destruct a as [? ? [?|] [?|]]; reflexivity).
  rewrite <- X, H. reflexivity.
Qed.

Definition wrapper_norm (w : wrapper) : wrapper :=
  mkWrap (w_keyid w) (option_map link_norm (w_keylink w)) (w_hashalg w) (w_key w).
Lemma keylink_tlv_norm l : keylink_tlv (link_norm l) = keylink_tlv l.
Proof. unfold keylink_tlv. rewrite link_wire_norm_eq. reflexivity. Qed.
Lemma wrapper_wire_norm w : wrapper_wire (wrapper_norm w) = wrapper_wire w.
Proof.
  unfold wrapper_wire, wrapper_norm. cbn [w_keyid w_keylink w_hashalg w_key].
  destruct (w_keylink w); cbn [option_map wire_opt]; [rewrite keylink_tlv_norm|]; reflexivity.
Qed.
Lemma keylink_tlv_tlv_ok l t : keylink_tlv l = Ok t -> tlv_ok t.
Proof. intros H. apply keylink_tlv_ok in H. tauto. Qed.
#[export] Hint Resolve keylink_tlv_tlv_ok : core.

Definition wrapper_tlvs (w : wrapper) (l : list tlv) : Prop :=
  exists l1 l2 l3 l4,
    opt_tlvs (htt_tlv T_KEYID) (Some (w_keyid w)) l1 /\ opt_tlvs keylink_tlv (w_keylink w) l2 /\
    opt_tlvs (int_tlv T_HASH_ALG) (w_hashalg w) l3 /\ opt_tlvs (octet_tlv T_WRAPPED_KEY) (w_key w) l4 /\
    Forall tlv_ok l /\ l = l1 ++ l2 ++ l3 ++ l4.
Lemma wrapper_wire_ok a w : wrapper_wire a = Ok w -> exists l, wrapper_tlvs a l /\ w = wires l.
Proof.
  unfold wrapper_wire. intros H. mon. subst. wopt E0 l2. wopt E1 l3. wopt E2 l4.
  exists ([a0] ++ l2 ++ l3 ++ l4). split.
  - exists [a0], l2, l3, l4. do 4 (split; [first [assumption|cbn; solve [eauto]]|]). split; [|reflexivity].
    rewrite !Forall_app. repeat split; try (constructor; [solve [eauto]|constructor]); (eapply opt_tlvs_ok; [|eassumption]; eauto).
  - rewrite !flatten_some, F, F0, F1. cbn [flatten]. rewrite !wires_app, !wires_one, app_nil_r. reflexivity.
Qed.

(* the wrapper parser skips what it does not know *)
Lemma wrapper_roundtrip a l extra w : wrapper_wf a -> wrapper_wire a = Ok w -> wrapper_tlvs a l ->
  Forall tlv_ok extra -> Forall (fun t => wrapper_table (t_type t) = None) extra ->
  wrapper_parse (wires (extra ++ l)) = Ok (Some (wrapper_norm a)).
Proof.
  intros W H (l1 & l2 & l3 & l4 & O1 & O2 & O3 & O4 & Hall & ->) Hx Hs.
  pose proof H as Hn. rewrite <- wrapper_wire_norm in Hn.
  unfold wrapper_parse, auto_value_parse.
  rewrite tlv_foreach_wires by (rewrite Forall_app; auto). rewrite ?foldM_app.
  rewrite auto_skip by assumption. cbn [bind]. rewrite ?foldM_app.
  rewrite (auto_opt wrapper_table true _ T_KEYID WHash _ _ _ [] O1 eq_refl); [|hash_fld|reflexivity].
  cbn [bind]. rewrite ?foldM_app.
  rewrite (auto_opt wrapper_table true _ T_KEYLINK (fun l => WLink (link_norm l)) _ _ _ _ O2 eq_refl); [| |look].
  2:{ intros k u Hk E. split; [apply keylink_tlv_ok in E; tauto|]. apply (rmap_intro WLink), keylink_roundtrip; auto. }
  cbn [bind]. rewrite ?foldM_app.
  rewrite (auto_opt wrapper_table true _ T_HASH_ALG WInt _ _ _ _ O3 eq_refl);
    [|int_fldb ltac:(fun Y => apply W; exact Y)|look].
  cbn [bind]. rewrite ?foldM_app.
  rewrite (auto_opt wrapper_table true _ T_WRAPPED_KEY WOct _ _ _ _ O4 eq_refl); [|oct_fld|look].
  cbn [bind].
  match goal with |- match ?v with _ => _ end = _ => assert (exists x y, v = x :: y) as (x & y & Hxy) end.
  { destruct (w_keylink a), (w_hashalg a), (w_key a); cbn; eauto. }
  rewrite Hxy, <- Hxy. clear Hxy. rewrite ?lookup_app, ?lookup_optfld.
  cbn [Z.eqb Pos.eqb T_KEYID T_KEYLINK T_HASH_ALG T_WRAPPED_KEY lookup option_map]. rewrite !opt_id. cbn [wv_hash].
  assert (wrapper_norm a = mkWrap (w_keyid a) (wv_link (option_map (fun l => WLink (link_norm l)) (w_keylink a)))
     (wv_int (option_map WInt (w_hashalg a))) (wv_oct (option_map WOct (w_key a)))) as X
    by (destruct a as [? [?|] [?|] [?|]]; reflexivity).
  rewrite <- X, Hn. reflexivity.
Qed.

(** * Security context *)

Definition ctx_norm (c : secctx) : secctx :=
  match c with CAead a => CAead a | CRsa a w => CRsa a (option_map wrapper_norm w) end.
Lemma ctx_tlv_norm c : ctx_tlv (ctx_norm c) = ctx_tlv c.
Proof.
  destruct c as [a|a [w|]]; cbn [ctx_norm ctx_tlv option_map optM]; [reflexivity| |reflexivity].
  rewrite wrapper_wire_norm. reflexivity.
Qed.
Lemma ctx_tlv_ok c t : ctx_tlv c = Ok t -> tlv_ok t /\ t_type t = T_SECURITY_CTX.
Proof. destruct c; cbn [ctx_tlv]; intros H; mon; apply tlv_make_tlv_ok in H; tauto. Qed.
Lemma ctx_tlv_tlv_ok c t : ctx_tlv c = Ok t -> tlv_ok t.
Proof. intros H. apply ctx_tlv_ok in H. tauto. Qed.
#[export] Hint Resolve ctx_tlv_tlv_ok : core.

Lemma aead_tlvs_ok a l : aead_tlvs a l -> Forall tlv_ok l.
Proof. intros (? & ? & ? & ? & _ & _ & _ & _ & H & _). exact H. Qed.
Lemma wrapper_tlvs_ok a l : wrapper_tlvs a l -> Forall tlv_ok l.
Proof. intros (? & ? & ? & ? & _ & _ & _ & _ & H & _). exact H. Qed.
Lemma opt_tlvs_forall {A} (enc : A -> res tlv) o l (P : tlv -> Prop) :
  opt_tlvs enc o l -> (forall a t, enc a = Ok t -> P t) -> Forall P l.
Proof. destruct o; cbn [opt_tlvs]; [intros (t & E & ->)|intros ->]; constructor; eauto. Qed.

(* the two parsers share the body but know different types *)
Lemma aead_wrapper_skip a l : aead_tlvs a l -> Forall (fun t => wrapper_table (t_type t) = None) l.
Proof.
  intros (l1 & l2 & l3 & l4 & O1 & O2 & O3 & O4 & _ & ->). rewrite !Forall_app.
  repeat split; (eapply opt_tlvs_forall; [eassumption|]); intros x t E.
  - apply int_tlv_ok in E. replace (t_type t) with T_KEYNUM by (symmetry; tauto). reflexivity.
  - apply octet_tlv_ok in E. replace (t_type t) with T_NONCE by (symmetry; tauto). reflexivity.
  - apply int_tlv_ok in E. replace (t_type t) with T_AEADMode by (symmetry; tauto). reflexivity.
  - apply kdf_tlv_ok in E. replace (t_type t) with T_KDF_DATA by (symmetry; tauto). reflexivity.
Qed.
Lemma wrapper_aead_skip a l : wrapper_tlvs a l -> Forall (fun t => aead_table (t_type t) = None) l.
Proof.
  intros (l1 & l2 & l3 & l4 & O1 & O2 & O3 & O4 & _ & ->). rewrite !Forall_app.
  repeat split; (eapply opt_tlvs_forall; [eassumption|]); intros x t E.
  - apply htt_tlv_ok in E. replace (t_type t) with T_KEYID by (symmetry; tauto). reflexivity.
  - apply keylink_tlv_ok in E. replace (t_type t) with T_KEYLINK by (symmetry; tauto). reflexivity.
  - apply int_tlv_ok in E. replace (t_type t) with T_HASH_ALG by (symmetry; tauto). reflexivity.
  - apply octet_tlv_ok in E. replace (t_type t) with T_WRAPPED_KEY by (symmetry; tauto). reflexivity.
Qed.

Lemma ctx_roundtrip c t : ctx_wf c -> ctx_tlv c = Ok t -> ctx_parse t = Ok (ctx_norm c).
Proof.
  intros W H. pose proof H as Hn. rewrite <- ctx_tlv_norm in Hn.
  pose proof (ctx_tlv_ok _ _ H) as (_ & Ht). unfold ctx_parse. rewrite Ht, Z.eqb_refl. cbn [guard bind].
  destruct c as [a|a w]; cbn [ctx_tlv ctx_wf] in H, W; mon.
  - apply tlv_make_tlv_ok in H as (_ & _ & ->). apply tlv_make_tlv_ok in E0 as (Ho & Hi & Hv).
    rewrite <- (app_nil_r (tlv_wire a1)), tlv_deserialize_wire by assumption. cbn [bind].
    rewrite Hi. change (T_AEAD_CTX =? T_AEAD_CTX) with true. cbn match.
    destruct (aead_wire_ok _ _ E) as (l & Hl & ->). rewrite Hv, <- (app_nil_r l).
    rewrite (aead_roundtrip a l [] _ W E Hl) by constructor. cbn [bind].
    cbn [ctx_norm] in *. rewrite Hn. reflexivity.
  - destruct W as [Wa Ww].
    apply tlv_make_tlv_ok in H as (_ & _ & ->). apply tlv_make_tlv_ok in E1 as (Ho & Hi & Hv).
    rewrite <- (app_nil_r (tlv_wire a2)), tlv_deserialize_wire by assumption. cbn [bind].
    rewrite Hi. change (T_RSAOAEP_CTX =? T_AEAD_CTX) with false. change (T_RSAOAEP_CTX =? T_RSAOAEP_CTX) with true. cbn match.
    destruct (aead_wire_ok _ _ E) as (l & Hl & ->). pose proof (aead_tlvs_ok _ _ Hl) as Hlo.
    destruct w as [w|]; cbn [optM] in E0; mon; subst.
    + destruct (wrapper_wire_ok _ _ E1) as (l' & Hl' & ->). pose proof (wrapper_tlvs_ok _ _ Hl') as Hlo'.
      rewrite Hv. rewrite !flatten_some. cbn [flatten]. rewrite app_nil_r, <- wires_app.
      rewrite (aead_roundtrip a l l' _ Wa E Hl Hlo' (wrapper_aead_skip _ _ Hl')). cbn [bind].
      rewrite (wrapper_roundtrip w l' l _ (Ww _ eq_refl) E1 Hl' Hlo (aead_wrapper_skip _ _ Hl)). cbn [bind].
      cbn [ctx_norm option_map] in *. rewrite Hn. reflexivity.
    + rewrite Hv. rewrite !flatten_some. cbn [flatten]. rewrite app_nil_r. rewrite <- (app_nil_r l).
      rewrite (aead_roundtrip a l [] _ Wa E Hl) by constructor. cbn [bind].
      unfold wrapper_parse, auto_value_parse. rewrite tlv_foreach_wires by (rewrite app_nil_r; assumption).
      rewrite app_nil_r, auto_skip by (eapply aead_wrapper_skip; eassumption). cbn [bind].
      cbn [ctx_norm option_map] in *. rewrite Hn. reflexivity.
Qed.

(** * Manifest *)

Definition mnode_norm (n : mnode) : mnode := match n with MNode n => MNode (node_norm n) | MEnc b => MEnc b end.
Definition man_norm (m : manifest) : manifest :=
  mkMan (option_map ctx_norm (m_ctx m)) (mnode_norm (m_node m)) (m_tag m).

Lemma mnode_tlv_ok n t : mnode_tlv n = Ok t -> tlv_ok t /\
  t_type t = match n with MNode _ => T_NODE | MEnc _ => T_ENCRYPTED_NODE end.
Proof. destruct n; cbn; intros H; [apply node_tlv_ok in H|apply octet_tlv_ok in H]; tauto. Qed.

Lemma man_wire_ok m w : man_wire m = Ok w ->
  exists l1 t l3, opt_tlvs ctx_tlv (m_ctx m) l1 /\ mnode_tlv (m_node m) = Ok t /\
    opt_tlvs (octet_tlv T_AUTH_TAG) (m_tag m) l3 /\
    Forall tlv_ok (l1 ++ [t] ++ l3) /\ w = wires (l1 ++ [t] ++ l3).
Proof.
  unfold man_wire. intros H. mon. subst. wopt E l1. wopt E1 l3. exists l1, a0, l3.
  do 3 (split; [assumption|]). split.
  - rewrite !Forall_app. repeat split; [eapply opt_tlvs_ok; [|eassumption]; eauto| |eapply opt_tlvs_ok; [|eassumption]; eauto].
    constructor; [|constructor]. apply mnode_tlv_ok in E0. tauto.
  - rewrite F, flatten_some, F0. cbn [flatten]. rewrite !wires_app, wires_one, app_nil_r. reflexivity.
Qed.
Lemma wire_opt_ctx o : wire_opt ctx_tlv (option_map ctx_norm o) = wire_opt ctx_tlv o.
Proof. destruct o; cbn [option_map wire_opt]; [rewrite ctx_tlv_norm|]; reflexivity. Qed.
Lemma mnode_norm_tlv n t : mnode_tlv n = Ok t -> exists t', mnode_tlv (mnode_norm n) = Ok t'.
Proof.
  destruct n as [n|b]; cbn [mnode_tlv mnode_norm]; [|eauto]. intros H. rewrite node_norm_unpad. eapply unpad_tlv; eassumption.
Qed.
Lemma man_norm_wire m w : man_wire m = Ok w -> exists w', man_wire (man_norm m) = Ok w'.
Proof.
  unfold man_wire. intros H. mon. destruct (mnode_norm_tlv _ _ E0) as (t' & E').
  unfold man_norm; cbn [m_ctx m_node m_tag]. rewrite wire_opt_ctx, E. cbn [bind]. rewrite E'. cbn [bind].
  rewrite E1. cbn [bind]. eauto.
Qed.
(* without padding the wire image is kept *)
Lemma man_norm_wire_eq m : (forall n, m_node m = MNode n -> n_pad n = None) -> man_wire (man_norm m) = man_wire m.
Proof.
  intros Hp. unfold man_wire, man_norm; cbn [m_ctx m_node m_tag]. rewrite wire_opt_ctx.
  destruct (m_node m) as [n|b] eqn:E; cbn [mnode_norm mnode_tlv]; [|reflexivity].
  rewrite node_norm_unpad. specialize (Hp n eq_refl). destruct n as [? ? p]; cbn in *. subst p. reflexivity.
Qed.

Lemma man_roundtrip m w : man_wf m -> man_wire m = Ok w -> man_deserialize w = Ok (man_norm m).
Proof.
  intros (W1 & W2) H. destruct (man_norm_wire _ _ H) as (w' & Hn).
  apply man_wire_ok in H as (l1 & t & l3 & O1 & E & O3 & Hall & ->).
  unfold man_deserialize. rewrite tlv_foreach_wires by assumption. rewrite ?foldM_app.
  rewrite (opt_fold _ man_step _ _ _ (option_map ctx_norm (m_ctx m), None, None) O1).
  2:{ intros ->; reflexivity. }
  2:{ intros c u Hc Ec. pose proof (ctx_tlv_ok _ _ Ec) as (_ & X). unfold man_step. rewrite X, Z.eqb_refl.
      cbn [is_none guard bind]. rewrite (ctx_roundtrip _ _ (W1 _ Hc) Ec), Hc. reflexivity. }
  cbn [bind]. rewrite ?foldM_app.
  assert (forall c, foldM man_step (c, None, None) [t] = Ok (c, Some (mnode_norm (m_node m)), None)) as ->.
  { intros c. cbn [foldM]. unfold man_step. pose proof (mnode_tlv_ok _ _ E) as (_ & X). rewrite X.
    destruct (m_node m) as [n|b]; cbn [mnode_tlv mnode_norm mnode_wf] in *.
    - change (T_NODE =? T_SECURITY_CTX) with false. change (T_NODE =? T_NODE) with true. cbn [is_none guard bind].
      rewrite (node_roundtrip _ _ W2 E). reflexivity.
    - change (T_ENCRYPTED_NODE =? T_SECURITY_CTX) with false. change (T_ENCRYPTED_NODE =? T_NODE) with false.
      change (T_ENCRYPTED_NODE =? T_ENCRYPTED_NODE) with true. cbn [is_none guard bind].
      rewrite (octet_roundtrip _ _ _ E). reflexivity. }
  cbn [bind]. rewrite ?foldM_app.
  rewrite (opt_fold _ man_step _ _ _ (option_map ctx_norm (m_ctx m), Some (mnode_norm (m_node m)), m_tag m) O3).
  2:{ intros ->; reflexivity. }
  2:{ intros c u Hc Ec. pose proof (octet_tlv_ok _ _ _ Ec) as (_ & X & _). unfold man_step. rewrite X.
      change (T_AUTH_TAG =? T_SECURITY_CTX) with false. change (T_AUTH_TAG =? T_NODE) with false.
      change (T_AUTH_TAG =? T_ENCRYPTED_NODE) with false. change (T_AUTH_TAG =? T_AUTH_TAG) with true.
      rewrite (octet_roundtrip _ _ _ Ec), Hc. reflexivity. }
  cbn [bind]. fold (man_norm m). rewrite Hn. reflexivity.
Qed.

(** * What a parser returns is in normal form *)

Definition is_norm {A} (norm : A -> A) (o : option A) : Prop := option_map norm o = o.

Lemma link_deserialize_norm w l : bytes_ok w -> link_deserialize w = Ok l -> link_norm l = l.
Proof.
  intros Hb H. unfold link_deserialize in H. mon. subst.
  cut (is_norm name_norm (l_name l)).
  { intros X. destruct l; unfold link_norm; cbn in *. rewrite X. reflexivity. }
  revert E. apply (tlv_foreach_ind (fun l => is_norm name_norm (l_name l))); [assumption| |reflexivity].
  intros s t s' Ht Hs H. unfold link_step in H.
  repeat match type of H with (if ?c then _ else _) = _ => destruct c end; mon; subst; cbn [l_name]; try assumption; try discriminate.
  unfold is_norm; cbn. f_equal. eapply name_parse_sound; eassumption.
Qed.
Lemma keylink_parse_norm t l : tlv_ok t -> keylink_parse t = Ok l -> link_norm l = l.
Proof.
  intros Ho H. unfold keylink_parse in H. mon. subst. eapply link_deserialize_norm; [|eassumption]. auto.
Qed.
Lemma loc_parse_norm t l : tlv_ok t -> loc_parse t = Ok l -> link_norm l = l.
Proof.
  intros Ho H. unfold loc_parse in H. mon. subst. eapply link_deserialize_norm; [|eassumption]. auto.
Qed.
Lemma map_fix_app {A} (f : A -> A) l a : map f l = l -> f a = a -> map f (l ++ [a]) = l ++ [a].
Proof. intros H1 H2. rewrite map_app, H1. cbn. rewrite H2. reflexivity. Qed.
Lemma locs_parse_norm t l : tlv_ok t -> locs_parse t = Ok l -> locs_norm l = l.
Proof.
  intros Ho H. unfold locs_parse in H. mon. subst. revert E0.
  apply (tlv_foreach_ind (fun l => locs_norm l = l)); [auto| |reflexivity].
  intros s u s' Hu Hs H. unfold locs_step in H. mon. subst. apply map_fix_app; [assumption|].
  eapply loc_parse_norm; eassumption.
Qed.

Definition sv_normal (k : Z) (v : sv) : Prop :=
  match v with SvName n => name_norm n = n | SvLocs l => locs_norm l = l | _ => True end.
Lemma sv_norm_name vs k : Forall (fun kv => sv_normal (fst kv) (snd kv)) vs ->
  is_norm name_norm (sv_name (lookup k vs)).
Proof.
  intros H. destruct (lookup k vs) as [v|] eqn:E; [|reflexivity]. apply (lookup_forall _ _ _ _ H) in E.
  destruct v; cbn in *; unfold is_norm; cbn; congruence.
Qed.
Lemma sv_norm_locs vs k : Forall (fun kv => sv_normal (fst kv) (snd kv)) vs ->
  is_norm locs_norm (sv_locs (lookup k vs)).
Proof.
  intros H. destruct (lookup k vs) as [v|] eqn:E; [|reflexivity]. apply (lookup_forall _ _ _ _ H) in E.
  destruct v; cbn in *; unfold is_norm; cbn; congruence.
Qed.
Ltac table_norm tac :=
  intros u p v Hu Hp Hv;
  repeat match type of Hp with (if ?c then _ else _) = _ => destruct c end; try discriminate;
  injection Hp as <-; apply rmap_ok in Hv as (x & Hx & ->); cbn; try exact I; tac Hu Hx.
Ltac sv_tac Hu Hx := first [exact (proj2 (name_parse_sound _ _ Hu Hx)) | exact (locs_parse_norm _ _ Hu Hx)].

Lemma schema_parse_norm t s : tlv_ok t -> schema_parse t = Ok s -> schema_norm s = s.
Proof.
  intros Ho H. unfold schema_parse in H.
  assert (X : prefix_schema_parse t = Ok s \/ seg_schema_parse t = Ok s \/ hash_schema_parse t = Ok s).
  { unfold try_else in H.
    destruct (prefix_schema_parse t) as [|[]]; try discriminate; auto.
    destruct (seg_schema_parse t) as [|[]]; try discriminate; auto.
    destruct (hash_schema_parse t) as [|[]]; try discriminate; auto. }
  clear H. destruct X as [H|[H|H]].
  - unfold prefix_schema_parse, auto_parse in H. mon. subst.
    eapply (auto_value_parse_inv sv_normal) in E; [|auto|unfold prefix_table; table_norm sv_tac].
    cbn [schema_norm]. rewrite (sv_norm_name _ _ E), (sv_norm_locs _ _ E). reflexivity.
  - unfold seg_schema_parse, auto_parse in H. mon. subst.
    eapply (auto_value_parse_inv sv_normal) in E; [|auto|unfold seg_table; table_norm sv_tac].
    cbn [schema_norm]. rewrite (sv_norm_name _ _ E), (sv_norm_locs _ _ E). reflexivity.
  - unfold hash_schema_parse, auto_parse in H. mon. subst.
    eapply (auto_value_parse_inv sv_normal) in E; [|auto|unfold hash_table; table_norm sv_tac].
    cbn [schema_norm]. rewrite (sv_norm_locs _ _ E). reflexivity.
Qed.

Lemma ncdef_parse_norm t d : tlv_ok t -> ncdef_parse t = Ok d -> ncdef_norm d = d.
Proof.
  intros Ho H. unfold ncdef_parse in H. mon. subst.
  cut (is_norm schema_norm (nd_schema d)).
  { intros X. destruct d; unfold ncdef_norm; cbn in *. rewrite X. reflexivity. }
  revert E0. apply (tlv_foreach_ind (fun d => is_norm schema_norm (nd_schema d))); [auto| |reflexivity].
  intros s u s' Hu Hs H. unfold ncdef_step in H. destruct (t_type u =? T_NCID); mon; subst; cbn [nd_schema]; [assumption|].
  unfold is_norm; cbn. f_equal. eapply schema_parse_norm; eassumption.
Qed.

Lemma nd_parse_norm t d : tlv_ok t -> nd_parse t = Ok d -> nd_norm d = d.
Proof.
  intros Ho H. unfold nd_parse in H. mon. subst.
  cut (is_norm locs_norm (nd_locators d) /\ map ncdef_norm (nd_ncdefs d) = nd_ncdefs d).
  { intros (X & Y). destruct d; unfold nd_norm; cbn in *. rewrite X, Y. reflexivity. }
  revert E0. apply (tlv_foreach_ind (fun d => is_norm locs_norm (nd_locators d) /\ map ncdef_norm (nd_ncdefs d) = nd_ncdefs d));
    [auto| |split; reflexivity].
  intros s u s' Hu (Hs1 & Hs2) H. unfold nd_step in H.
  repeat match type of H with (if ?c then _ else _) = _ => destruct c end; mon; subst; cbn [nd_locators nd_ncdefs];
    try (split; assumption); try discriminate.
  - split; [|assumption]. unfold is_norm; cbn. f_equal. eapply locs_parse_norm; eassumption.
  - split; [assumption|]. apply map_fix_app; [assumption|]. eapply ncdef_parse_norm; eassumption.
Qed.

Lemma node_parse_norm t n : tlv_ok t -> node_parse t = Ok n -> node_norm n = n.
Proof.
  intros Ho H. unfold node_parse in H. mon. subst.
  cut (is_norm nd_norm (fst a0)).
  { intros X. unfold node_norm; cbn in *. rewrite X. reflexivity. }
  revert E0. apply (tlv_foreach_ind (fun s => is_norm nd_norm (fst s))); [auto| |reflexivity].
  intros s u s' Hu Hs H. unfold node_step in H.
  repeat match type of H with (if ?c then _ else _) = _ => destruct c end; mon; subst; cbn [fst];
    try assumption; try discriminate.
  unfold is_norm; cbn. f_equal. eapply nd_parse_norm; eassumption.
Qed.
Lemma node_parse_sound t n : node_parse t = Ok n -> exists t', node_tlv n = Ok t'.
Proof. unfold node_parse. intros H. mon. subst. eauto. Qed.
Lemma nd_parse_sound t n : nd_parse t = Ok n -> exists t', nd_tlv n = Ok t'.
Proof. unfold nd_parse. intros H. mon. subst. eauto. Qed.

Definition wv_normal (k : Z) (v : wv) : Prop := match v with WLink l => link_norm l = l | _ => True end.
Lemma wrapper_parse_norm b w : bytes_ok b -> wrapper_parse b = Ok w -> option_map wrapper_norm w = w.
Proof.
  intros Hb H. unfold wrapper_parse in H. mon.
  eapply (auto_value_parse_inv wv_normal) in E; [|assumption|].
  2:{ unfold wrapper_table. table_norm ltac:(fun Hu Hx => exact (keylink_parse_norm _ _ Hu Hx)). }
  destruct a as [|kv a]; [apply Ok_inj in H; subst; reflexivity|].
  remember (kv :: a) as vs. destruct (wv_hash (lookup T_KEYID vs)); [|discriminate]. mon. subst w. cbn [option_map].
  f_equal. unfold wrapper_norm. cbn [w_keyid w_keylink w_hashalg w_key]. f_equal.
  destruct (lookup T_KEYLINK vs) as [v|] eqn:El; [|reflexivity]. apply (lookup_forall _ _ _ _ E) in El.
  destruct v; cbn in *; congruence.
Qed.
Lemma ctx_parse_norm t c : tlv_ok t -> ctx_parse t = Ok c -> ctx_norm c = c.
Proof.
  intros Ho H. unfold ctx_parse in H. mon.
  apply tlv_deserialize_inv in E0; [|auto]. 
  destruct (t_type a0 =? T_AEAD_CTX); [|destruct (t_type a0 =? T_RSAOAEP_CTX); [|discriminate]]; mon; subst; cbn [ctx_norm].
  - reflexivity.
  - f_equal. eapply wrapper_parse_norm; [|eassumption]. destruct E0 as (E0 & _). auto.
Qed.
Lemma man_deserialize_norm b m : bytes_ok b -> man_deserialize b = Ok m -> man_norm m = m.
Proof.
  intros Hb H. unfold man_deserialize in H. mon. destruct a as [[c n] tg]. destruct n as [n|]; [|discriminate]. mon. subst m.
  cut (is_norm ctx_norm c /\ is_norm mnode_norm (Some n)).
  { intros (X & Y). unfold man_norm; cbn. rewrite X. unfold is_norm in Y. cbn in Y. injection Y as ->. reflexivity. }
  revert E. change c with (fst (fst (c, Some n, tg))) at 2. change (Some n) with (snd (fst (c, Some n, tg))) at 3.
  apply (tlv_foreach_ind (fun s => is_norm ctx_norm (fst (fst s)) /\ is_norm mnode_norm (snd (fst s))));
    [assumption| |split; reflexivity].
  intros [[c' n'] tg'] u s' Hu (Hs1 & Hs2) H. unfold man_step in H. cbn [fst snd] in *.
  repeat match type of H with (if ?c then _ else _) = _ => destruct c end; mon; subst; cbn [fst snd];
    try (split; assumption); try discriminate.
  - split; [|assumption]. unfold is_norm; cbn. f_equal. eapply ctx_parse_norm; eassumption.
  - split; [assumption|]. unfold is_norm; cbn. do 2 f_equal. eapply node_parse_norm; eassumption.
  - split; [assumption|]. reflexivity.
Qed.
Lemma man_deserialize_sound b m : man_deserialize b = Ok m -> exists w, man_wire m = Ok w.
Proof.
  unfold man_deserialize. intros H. mon. destruct a as [[c n] tg]. destruct n; [|discriminate]. mon. subst. eauto.
Qed.

(** * Which exceptions the manifest parsers can raise *)

Lemma gd_tlv_errs g : errs (gd_tlv g) [OverflowError].
Proof.
  unfold gd_tlv. errs_tac fail; apply wire_opt_errs; intros; errs_tac ltac:(apply htt_tlv_errs).
Qed.
Lemma gd_parse_errs t : tlv_ok t -> errs (gd_parse t) [CannotParseError; ParseError; OverflowError].
Proof.
  intros Ho. unfold gd_parse, auto_parse. errs_tac ltac:(apply gd_tlv_errs).
  apply auto_value_parse_errs; [cbn; tauto| |auto].
  intros ty p u Hp Hu. unfold gd_table in Hp.
  repeat match type of Hp with (if ?c then _ else _) = _ => destruct c end; try discriminate; injection Hp as <-;
  apply rmap_errs; errs_tac ltac:(apply htt_parse_errs; assumption).
Qed.
Definition flic_exns := [ValueError; ParseError; CannotParseError; RuntimeError; AssertionError; TypeError; OverflowError].
Ltac errs_up L := eapply errs_incl; [L|intros ? ?; cbn in *; tauto].
Lemma ptrs_tlv_errs hs : errs (ptrs_tlv hs) [OverflowError].
Proof. unfold ptrs_tlv. errs_tac fail. apply mapM_errs. intros; apply hashv_tlv_errs. Qed.
Lemma hg_tlv_errs h : errs (hg_tlv h) [OverflowError].
Proof.
  unfold hg_tlv. errs_tac fail; apply wire_opt_errs; intros; errs_tac ltac:(first [apply gd_tlv_errs|apply ptrs_tlv_errs]).
Qed.
Lemma hg_parse_errs t : tlv_ok t -> errs (hg_parse t) [CannotParseError; ValueError; ParseError; OverflowError].
Proof.
  intros Ho. unfold hg_parse, auto_parse. errs_tac ltac:(apply hg_tlv_errs).
  apply auto_value_parse_errs; [cbn; tauto| |auto].
  intros ty p u Hp Hu. unfold hg_table in Hp.
  repeat match type of Hp with (if ?c then _ else _) = _ => destruct c end; try discriminate; injection Hp as <-;
  apply rmap_errs; errs_tac ltac:(first [apply gd_parse_errs; assumption|apply ptrs_parse_errs; assumption]).
Qed.
Lemma loc_tlv_errs l : errs (loc_tlv l) [ValueError; OverflowError].
Proof. unfold loc_tlv. errs_tac ltac:(apply link_wire_errs). Qed.
Lemma locs_tlv_errs l : errs (locs_tlv l) [RuntimeError; ValueError; OverflowError].
Proof. unfold locs_tlv. errs_tac fail. apply mapM_errs. intros. errs_up ltac:(apply loc_tlv_errs). Qed.
Lemma locs_parse_errs t : tlv_ok t -> errs (locs_parse t) flic_exns.
Proof.
  intros Ho. unfold locs_parse. errs_tac ltac:(apply locs_tlv_errs).
  apply tlv_foreach_errs; [cbn; tauto| |auto]. intros s u Hu. unfold locs_step, loc_parse.
  errs_tac ltac:(first [apply loc_tlv_errs|apply link_deserialize_errs; auto]).
Qed.
Lemma suffix_tlv_errs n : errs (suffix_tlv n) [ValueError; AssertionError; OverflowError].
Proof. unfold suffix_tlv, create_uint16, uint16_to_array. errs_tac fail. Qed.
Lemma schema_tlv_errs s : errs (schema_tlv s) flic_exns.
Proof.
  destruct s; cbn [schema_tlv]; errs_tac fail; apply wire_opt_errs; intros;
  errs_tac ltac:(first [apply locs_tlv_errs|apply name_tlv_errs|apply suffix_tlv_errs]).
Qed.
Ltac sv_errs := intros ty p u Hp Hu;
  repeat match type of Hp with (if ?c then _ else _) = _ => destruct c end; try discriminate; injection Hp as <-;
  apply rmap_errs; unfold flags_parse, suffix_parse;
  errs_tac ltac:(first [apply locs_parse_errs; assumption|apply name_parse_errs; assumption|apply suffix_tlv_errs]).
Lemma schema_parse_errs t : tlv_ok t -> errs (schema_parse t) flic_exns.
Proof.
  intros Ho.
  assert (P : errs (prefix_schema_parse t) flic_exns).
  { unfold prefix_schema_parse, auto_parse. errs_tac ltac:(apply schema_tlv_errs).
    apply auto_value_parse_errs; [cbn; tauto| |auto]. unfold prefix_table. sv_errs. }
  assert (S : errs (seg_schema_parse t) flic_exns).
  { unfold seg_schema_parse, auto_parse. errs_tac ltac:(apply schema_tlv_errs).
    apply auto_value_parse_errs; [cbn; tauto| |auto]. unfold seg_table. sv_errs. }
  assert (H : errs (hash_schema_parse t) flic_exns).
  { unfold hash_schema_parse, auto_parse. errs_tac ltac:(apply schema_tlv_errs).
    apply auto_value_parse_errs; [cbn; tauto| |auto]. unfold hash_table. sv_errs. }
  assert (T : forall (m k : res schema), errs m flic_exns -> errs k flic_exns -> errs (try_else m k) flic_exns).
  { intros m k Hm Hk. unfold try_else. destruct m as [|[]]; try assumption; apply errs_ok. }
  unfold schema_parse. apply T; [assumption|]. apply T; [assumption|]. apply T; [assumption|]. apply errs_err. cbn; tauto.
Qed.
Lemma ncdef_tlv_errs d : errs (ncdef_tlv d) flic_exns.
Proof. unfold ncdef_tlv. errs_tac fail; apply wire_opt_errs; intros; errs_tac ltac:(apply schema_tlv_errs). Qed.
Lemma ncdef_parse_errs t : tlv_ok t -> errs (ncdef_parse t) flic_exns.
Proof.
  intros Ho. unfold ncdef_parse. errs_tac ltac:(apply ncdef_tlv_errs).
  apply tlv_foreach_errs; [cbn; tauto| |auto]. intros s u Hu. unfold ncdef_step.
  errs_tac ltac:(apply schema_parse_errs; assumption).
Qed.
Lemma vendor_tlv_errs v : errs (vendor_tlv v) [ValueError; OverflowError].
Proof. unfold vendor_tlv, uint24_to_array. errs_tac fail. Qed.
Lemma vendor_parse_errs t : errs (vendor_parse t) flic_exns.
Proof. unfold vendor_parse. errs_tac ltac:(apply vendor_tlv_errs). Qed.
Lemma nd_tlv_errs d : errs (nd_tlv d) flic_exns.
Proof.
  unfold nd_tlv. errs_tac fail; first [apply wire_opt_errs|apply mapM_errs]; intros;
  errs_tac ltac:(first [apply htt_tlv_errs|apply locs_tlv_errs|apply ncdef_tlv_errs|apply vendor_tlv_errs]).
Qed.
Lemma nd_parse_errs t : tlv_ok t -> errs (nd_parse t) flic_exns.
Proof.
  intros Ho. unfold nd_parse. errs_tac ltac:(apply nd_tlv_errs).
  apply tlv_foreach_errs; [cbn; tauto| |auto]. intros s u Hu. unfold nd_step.
  errs_tac ltac:(first [apply htt_parse_errs; assumption|apply locs_parse_errs; assumption|apply ncdef_parse_errs; assumption|apply vendor_parse_errs]).
Qed.
Lemma node_tlv_errs n : errs (node_tlv n) flic_exns.
Proof.
  unfold node_tlv, node_value, pad_tlv, octet_tlv.
  errs_tac fail; first [apply wire_opt_errs|apply mapM_errs]; intros;
  errs_tac ltac:(first [apply nd_tlv_errs|apply hg_tlv_errs]).
Qed.
Lemma node_parse_errs t : tlv_ok t -> errs (node_parse t) flic_exns.
Proof.
  intros Ho. unfold node_parse. errs_tac ltac:(apply node_tlv_errs).
  apply tlv_foreach_errs; [cbn; tauto| |auto]. intros s u Hu. unfold node_step.
  errs_tac ltac:(first [apply nd_parse_errs; assumption|apply hg_parse_errs; assumption]).
Qed.
Lemma octet_tlv_errs ty b : errs (octet_tlv ty b) [OverflowError].
Proof. unfold octet_tlv. errs_tac fail. Qed.
Lemma kdf_tlv_errs k : errs (kdf_tlv k) [OverflowError].
Proof. unfold kdf_tlv. errs_tac fail. apply wire_opt_errs; intros; apply octet_tlv_errs. Qed.
Lemma kdf_parse_errs t : tlv_ok t -> errs (kdf_parse t) flic_exns.
Proof.
  intros Ho. unfold kdf_parse, auto_parse. errs_tac ltac:(apply kdf_tlv_errs).
  apply auto_value_parse_errs; [cbn; tauto| |auto].
  intros ty p u Hp Hu. unfold kdf_table in Hp.
  repeat match type of Hp with (if ?c then _ else _) = _ => destruct c end; try discriminate; injection Hp as <-;
  apply rmap_errs; errs_tac fail.
Qed.
Lemma aead_wire_errs a : errs (aead_wire a) [OverflowError].
Proof.
  unfold aead_wire. errs_tac ltac:(apply octet_tlv_errs); apply wire_opt_errs; intros; errs_tac ltac:(apply kdf_tlv_errs).
Qed.
Lemma aead_parse_errs b : bytes_ok b -> errs (aead_parse b) flic_exns.
Proof.
  intros Ho. unfold aead_parse. errs_tac ltac:(apply aead_wire_errs).
  apply auto_value_parse_errs; [cbn; tauto| |assumption].
  intros ty p u Hp Hu. unfold aead_table in Hp.
  repeat match type of Hp with (if ?c then _ else _) = _ => destruct c end; try discriminate; injection Hp as <-;
  apply rmap_errs; errs_tac ltac:(apply kdf_parse_errs; assumption).
Qed.
Lemma wrapper_wire_errs a : errs (wrapper_wire a) [OverflowError].
Proof.
  unfold wrapper_wire. errs_tac ltac:(apply htt_tlv_errs); apply wire_opt_errs; intros;
  errs_tac ltac:(first [apply octet_tlv_errs|apply keylink_tlv_errs]).
Qed.
Lemma wrapper_parse_errs b : bytes_ok b -> errs (wrapper_parse b) flic_exns.
Proof.
  intros Ho. unfold wrapper_parse. errs_tac ltac:(apply wrapper_wire_errs).
  apply auto_value_parse_errs; [cbn; tauto| |assumption].
  intros ty p u Hp Hu. unfold wrapper_table in Hp.
  repeat match type of Hp with (if ?c then _ else _) = _ => destruct c end; try discriminate; injection Hp as <-;
  apply rmap_errs; errs_tac ltac:(first [apply htt_parse_errs; assumption|apply keylink_parse_errs; assumption]).
Qed.
Lemma ctx_tlv_errs c : errs (ctx_tlv c) [OverflowError].
Proof.
  destruct c as [a|a [w|]]; cbn [ctx_tlv optM]; errs_tac ltac:(first [apply aead_wire_errs|apply wrapper_wire_errs]).
Qed.
Lemma ctx_parse_errs t : tlv_ok t -> errs (ctx_parse t) flic_exns.
Proof.
  intros Ho. unfold ctx_parse. apply errs_bind; [errs_tac fail|]. intros _ _. apply errs_bind.
  - apply tlv_deserialize_errs; [auto|cbn; tauto].
  - intros i Hi. apply tlv_deserialize_inv in Hi; [|auto]. destruct Hi as (Hi & _).
    errs_tac ltac:(first [apply ctx_tlv_errs|apply aead_parse_errs; solve [auto]|apply wrapper_parse_errs; solve [auto]]).
Qed.
Lemma man_wire_errs m : errs (man_wire m) flic_exns.
Proof.
  unfold man_wire. errs_tac fail.
  - apply wire_opt_errs; intros. errs_up ltac:(apply ctx_tlv_errs).
  - destruct (m_node m); cbn [mnode_tlv]; [apply node_tlv_errs|errs_up ltac:(apply octet_tlv_errs)].
  - apply wire_opt_errs; intros. errs_up ltac:(apply octet_tlv_errs).
Qed.
Lemma man_deserialize_errs b : bytes_ok b -> errs (man_deserialize b) flic_exns.
Proof.
  intros Hb. unfold man_deserialize. errs_tac ltac:(apply man_wire_errs).
  apply tlv_foreach_errs; [cbn; tauto| |assumption]. intros s u Hu. unfold man_step.
  errs_tac ltac:(first [apply ctx_parse_errs; assumption|apply node_parse_errs; assumption]).
Qed.
