(* C10-C18 and C53: the manifest TLVs. *)
From Coq Require Import ZArith List Bool Lia ZifyBool Permutation.
From Verif Require Import Py Tlv Float Core Flic Spec WireSpec TlvProofs FloatProofs CoreProofs FlicProofs PropsTlv PropsCore.
Import ListNotations.
Open Scope Z_scope.
Ltac Zify.zify_post_hook ::= Z.div_mod_to_equations.
Opaque tlv_make tlv_wire tlv_deserialize.

(** * Wire images *)

Lemma be_bytes_unique a : bytes_ok a -> a = be_bytes (length a) (be_value a).
Proof.
  induction a as [|b a IH]; intros Hb; [reflexivity|].
  apply bytes_ok_cons in Hb as [H0 Hb]. cbn [length be_bytes be_value].
  assert (Hv : 0 <= be_value a < 256 ^ Z.of_nat (length a)).
  { rewrite be_value_acc. pose proof (be_acc_bound a Hb). unfold zlen in *. lia. }
  rewrite Z.add_comm, Z.div_add by lia. rewrite (Z.div_small (be_value a)) by lia.
  rewrite Z.add_0_l, Z.mod_small by lia. f_equal. rewrite (IH Hb) at 1.
  assert (forall k x y, (k <= length a)%nat ->
     be_bytes k (x + y * 256 ^ Z.of_nat (length a)) = be_bytes k x) as X; [|symmetry; apply X; lia].
  induction k as [|k IHk]; intros x y Hk; [reflexivity|]. cbn [be_bytes]. rewrite IHk by lia. f_equal.
  replace (256 ^ Z.of_nat (length a)) with (256 ^ Z.of_nat (length a - S k) * 256 * 256 ^ Z.of_nat k).
  - rewrite Z.mul_assoc, Z.div_add by lia. rewrite (Z.mul_assoc y _ 256), Z.mod_add by lia. reflexivity.
  - rewrite <- Z.mul_assoc. rewrite <- Z.pow_succ_r by lia. rewrite <- Z.pow_add_r by lia. f_equal. lia.
Qed.
Lemma frame_of t ty v : t_type t = ty -> t_val t = v -> tlv_wire t = frame ty v.
Proof. intros <- <-. apply frame_wire. Qed.
Lemma int_wire ty n t : n < 2 ^ 64 -> int_tlv ty n = Ok t -> tlv_wire t = uint_frame ty n.
Proof.
  intros Hn H. pose proof H as H'. apply int_tlv_ok in H' as (Ho & Ht & H0 & _).
  destruct (C04_varint_roundtrip ty n) as (t' & E & _ & Hv & Hl & _); [|split; assumption|].
  { destruct Ho as (Ho & _). lia. }
  assert (t' = t) as -> by congruence. apply frame_of; [assumption|].
  rewrite (be_bytes_unique (t_val t)) by auto. rewrite Hv. f_equal. unfold zlen in Hl. lia.
Qed.
Lemma opt_wire {A} (enc : A -> res tlv) (f : A -> list Z) o l : opt_tlvs enc o l ->
  (forall a t, o = Some a -> enc a = Ok t -> tlv_wire t = f a) -> wires l = opt_bytes f o.
Proof.
  intros Ho H. destruct o as [a|]; cbn [opt_tlvs opt_bytes] in *; [|subst; reflexivity].
  destruct Ho as (t & E & ->). rewrite wires_one. apply H; auto.
Qed.
Lemma list_wire {A} (enc : A -> res tlv) (f : A -> list Z) xs l : mapM enc xs = Ok l ->
  (forall a t, In a xs -> enc a = Ok t -> tlv_wire t = f a) -> wires l = flat_map f xs.
Proof.
  intros H Hf. apply mapM_ok_Forall2 in H. induction H as [|a t xs l E _ IH]; [reflexivity|].
  rewrite wires_cons. cbn [flat_map]. f_equal; [apply Hf; [left; reflexivity|assumption]|].
  apply IH. intros; apply Hf; [right; assumption|assumption].
Qed.
Lemma hash_wire h t : hashv_tlv h = Ok t -> tlv_wire t = w_hash h.
Proof. intros H. apply hashv_tlv_ok in H as [_ ->]. apply frame_of; reflexivity. Qed.
Lemma htt_wire ty h t : htt_tlv ty h = Ok t -> tlv_wire t = w_hash_in ty h.
Proof.
  intros H. apply htt_tlv_ok in H as (_ & Ht & i & Hi & Hv). apply frame_of; [assumption|].
  rewrite Hv. apply hash_wire; assumption.
Qed.
Lemma name_wire n t : name_tlv n = Ok t -> tlv_wire t = w_name n.
Proof.
  intros H. unfold name_tlv in H. mon. apply tlv_make_tlv_ok in H as (_ & Ht & Hv). apply frame_of; [assumption|].
  rewrite Hv. eapply (list_wire comp_tlv); [eassumption|]. intros c u _ Ec. unfold comp_tlv in Ec.
  apply tlv_make_tlv_ok in Ec as (_ & A & B). apply frame_of; assumption.
Qed.
Lemma link_wire_eq l w : link_wire l = Ok w -> w = w_link l.
Proof.
  intros H. apply link_wire_ok in H as (l1 & l2 & l3 & O1 & O2 & O3 & _ & ->). rewrite !wires_app.
  unfold w_link. f_equal; [|f_equal].
  - eapply opt_wire; [eassumption|]. intros; apply name_wire; assumption.
  - eapply opt_wire; [eassumption|]. intros; apply htt_wire; assumption.
  - eapply opt_wire; [eassumption|]. intros; apply htt_wire; assumption.
Qed.
Lemma ptrs_wire hs t : ptrs_tlv hs = Ok t -> tlv_wire t = w_pointers hs.
Proof.
  intros H. apply ptrs_tlv_ok in H as (_ & Ht & l & Hl & Hv). apply frame_of; [assumption|].
  rewrite Hv. eapply list_wire; [eassumption|]. intros; apply hash_wire; assumption.
Qed.
Ltac ow := eapply opt_wire; [eassumption|]; intros;
  first [apply htt_wire; assumption | apply int_wire; [auto|assumption] | auto].
Lemma gd_wire g t : gd_wf g -> gd_tlv g = Ok t -> tlv_wire t = w_group_data g.
Proof.
  intros (W1 & W2 & W3 & W4) H.
  apply gd_tlv_ok in H as (_ & Ht & l1 & l2 & l3 & l4 & l5 & l6 & O1 & O2 & O3 & O4 & O5 & O6 & _ & Hv).
  apply frame_of; [assumption|]. rewrite Hv, !wires_app. repeat (f_equal; [ow|]). ow.
Qed.
Lemma hg_wire h t : hg_wf h -> hg_tlv h = Ok t -> tlv_wire t = w_hash_group h.
Proof.
  intros W H. apply hg_tlv_ok in H as (_ & Ht & l1 & l2 & O1 & O2 & _ & Hv).
  apply frame_of; [assumption|]. rewrite Hv, !wires_app. f_equal; (eapply opt_wire; [eassumption|]); intros.
  - apply gd_wire; auto.
  - apply ptrs_wire; assumption.
Qed.
Lemma locs_wire ls t : locs_tlv ls = Ok t -> tlv_wire t = w_locators ls.
Proof.
  intros H. apply locs_tlv_ok in H as (_ & Ht & _ & l & Hl & Hv). apply frame_of; [assumption|].
  rewrite Hv. eapply list_wire; [eassumption|]. intros a u _ E. apply loc_tlv_ok in E as (_ & A & B & _).
  apply frame_of; [assumption|]. apply link_wire_eq; assumption.
Qed.
Lemma suffix_wire n t : suffix_tlv n = Ok t -> tlv_wire t = frame 2 (be_bytes 2 n).
Proof.
  intros H. unfold suffix_tlv, create_uint16, uint16_to_array in H. mon. apply array_B_ok in E1 as [Hb ->].
  apply tlv_make_tlv_ok in H as (_ & A & B). apply frame_of; [assumption|]. rewrite B.
  rewrite shr, land255 by lia. cbn [be_bytes]. change (256 ^ Z.of_nat 1) with 256. change (256 ^ Z.of_nat 0) with 1.
  rewrite Z.div_1_r. change (2 ^ 8) with 256. f_equal. lia.
Qed.
Lemma schema_wire s t : schema_tlv s = Ok t -> tlv_wire t = w_schema s.
Proof.
  assert (L : forall o l, opt_tlvs locs_tlv o l -> wires l = opt_bytes w_locators o)
    by (intros; eapply opt_wire; [eassumption|intros; apply locs_wire; assumption]).
  assert (N : forall o l, opt_tlvs name_tlv o l -> wires l = opt_bytes w_name o)
    by (intros; eapply opt_wire; [eassumption|intros; apply name_wire; assumption]).
  destruct s; cbn [schema_tlv]; intros H; mon.
  - wopt E0 l1. rewrite F in H. apply tlv_make_tlv_ok in H as (_ & A & B). apply frame_of; [assumption|].
    rewrite B. cbn [flatten]. rewrite app_nil_r. auto.
  - wopt E0 l1. wopt E1 l2. rewrite F, F0 in H. apply tlv_make_tlv_ok in H as (_ & A & B). apply frame_of; [assumption|].
    rewrite B. cbn [flatten]. rewrite app_nil_r. f_equal; auto.
  - wopt E0 l1. wopt E1 l2. wopt E2 l3. rewrite F, F0, F1 in H. apply tlv_make_tlv_ok in H as (_ & A & B). apply frame_of; [assumption|].
    rewrite B. cbn [flatten]. rewrite app_nil_r. f_equal; [auto|f_equal; [|auto]].
    eapply opt_wire; [eassumption|]. intros; apply suffix_wire; assumption.
Qed.
Lemma ncdef_wire d t : ncdef_wf d -> ncdef_tlv d = Ok t -> tlv_wire t = w_ncdef d.
Proof.
  intros W H. apply ncdef_tlv_ok in H as (_ & Ht & l1 & l2 & O1 & O2 & _ & Hv).
  apply frame_of; [assumption|]. rewrite Hv, !wires_app. f_equal; (eapply opt_wire; [eassumption|]); intros.
  - apply int_wire; auto.
  - apply schema_wire; assumption.
Qed.
Lemma vendor_wire v t : vendor_tlv v = Ok t -> tlv_wire t = w_vendor v.
Proof.
  intros H. apply vendor_tlv_ok in H as (_ & Ht & H1 & H2 & Hb). apply frame_of; [assumption|].
  rewrite <- (ztake_zskip 3 (t_val t)), H1, H2. f_equal. cbn [be_bytes].
  change (256 ^ Z.of_nat 2) with 65536. change (256 ^ Z.of_nat 1) with 256. change (256 ^ Z.of_nat 0) with 1.
  change (2 ^ 24) with 16777216 in Hb. rewrite Z.div_1_r. f_equal. lia.
Qed.
Lemma nd_wire d t : nd_wf d -> nd_tlv d = Ok t -> tlv_wire t = w_node_data d.
Proof.
  intros (W1 & W2) H.
  apply nd_tlv_ok in H as (_ & Ht & l1 & l2 & l3 & l4 & l5 & O1 & O2 & O3 & M4 & M5 & _ & Hv).
  apply frame_of; [assumption|]. rewrite Hv, !wires_app. f_equal; [ow|f_equal; [ow|f_equal; [|f_equal]]].
  - eapply opt_wire; [eassumption|]. intros; apply locs_wire; assumption.
  - eapply list_wire; [eassumption|]. intros a u Hin E. apply ncdef_wire; [|assumption].
    rewrite Forall_forall in W2. auto.
  - eapply list_wire; [eassumption|]. intros a u Hin E. apply vendor_wire; assumption.
Qed.
Lemma node_wire n t : node_wf n -> node_tlv n = Ok t -> tlv_wire t = w_node n.
Proof.
  intros (W1 & W2) H. apply node_tlv_ok in H as (Ho & Ht & _ & Hv).
  apply frame_of; [assumption|]. unfold node_value in Hv. inv_bind Hv. inv_bind Hv. wopt E l1.
  change concat_wires with wires in Hv.
  assert (B : flatten [a; Some (wires a0)] = w_node_body n).
  { rewrite F, flatten_some. cbn [flatten]. rewrite app_nil_r. unfold w_node_body. f_equal.
    - eapply opt_wire; [eassumption|]. intros; apply nd_wire; auto.
    - eapply list_wire; [eassumption|]. intros x u Hin E. apply hg_wire; [|assumption].
      rewrite Forall_forall in W2. auto. }
  rewrite B in Hv. destruct (n_pad n) as [pl|]; cbn [opt_bytes].
  - unfold w_pad. unfold zlen in Hv.
    set (k := Z.of_nat (length (w_node_body n))) in *.
    destruct (4 <=? pl - (4 + k)) eqn:Ed.
    + replace (pl - 4 - k <? 4) with false by lia. mon.
      unfold pad_tlv, octet_tlv in E. mon. apply tlv_make_tlv_ok in E as (_ & A & C).
      rewrite <- Hv. replace (flatten [a; Some (wires a0); Some (tlv_wire a1)]) with (w_node_body n ++ tlv_wire a1).
      * f_equal. apply frame_of; [assumption|]. rewrite C. do 2 f_equal. lia.
      * rewrite <- B, !F, !flatten_some. cbn [flatten]. rewrite !app_nil_r, <- app_assoc. reflexivity.
    + replace (pl - 4 - k <? 4) with true by lia. mon. rewrite app_nil_r. congruence.
  - mon. rewrite app_nil_r. congruence.
Qed.
Lemma octet_wire ty b t : octet_tlv ty b = Ok t -> tlv_wire t = frame ty b.
Proof. intros H. apply octet_tlv_ok in H as (_ & A & B). apply frame_of; assumption. Qed.
Lemma kdf_wire k t : kdf_wf k -> kdf_tlv k = Ok t -> tlv_wire t = w_kdf k.
Proof.
  intros W H. apply kdf_tlv_ok in H as (_ & Ht & l1 & l2 & O1 & O2 & _ & Hv).
  apply frame_of; [assumption|]. rewrite Hv, !wires_app. f_equal.
  - destruct O1 as (u & E & ->). rewrite wires_one. apply int_wire; assumption.
  - eapply opt_wire; [eassumption|]. intros; apply octet_wire; assumption.
Qed.
Lemma aead_wire_eq a w : aead_wf a -> aead_wire a = Ok w -> w = w_aead a.
Proof.
  intros (W1 & W2 & W3) H. apply aead_wire_ok in H as (l & (l1 & l2 & l3 & l4 & O1 & O2 & O3 & O4 & _ & ->) & ->).
  rewrite !wires_app. unfold w_aead. f_equal; [|f_equal; [|f_equal]].
  - destruct O1 as (u & E & ->). rewrite wires_one. apply int_wire; assumption.
  - destruct O2 as (u & E & ->). rewrite wires_one. apply octet_wire; assumption.
  - ow.
  - eapply opt_wire; [eassumption|]. intros; apply kdf_wire; auto.
Qed.
Lemma wrapper_wire_eq a w : wrapper_wf a -> wrapper_wire a = Ok w -> w = w_wrapper a.
Proof.
  intros W H. apply wrapper_wire_ok in H as (l & (l1 & l2 & l3 & l4 & O1 & O2 & O3 & O4 & _ & ->) & ->).
  rewrite !wires_app. unfold w_wrapper. f_equal; [|f_equal; [|f_equal]].
  - destruct O1 as (u & E & ->). rewrite wires_one. apply htt_wire; assumption.
  - eapply opt_wire; [eassumption|]. intros l u _ E. apply keylink_tlv_ok in E as (_ & A & B).
    apply frame_of; [assumption|]. apply link_wire_eq; assumption.
  - ow.
  - eapply opt_wire; [eassumption|]. intros; apply octet_wire; assumption.
Qed.
Lemma ctx_wire c t : ctx_wf c -> ctx_tlv c = Ok t -> tlv_wire t = w_ctx c.
Proof.
  intros W H. destruct c as [a|a w]; cbn [ctx_tlv ctx_wf] in *; mon.
  - apply tlv_make_tlv_ok in H as (_ & A & B). apply frame_of; [assumption|]. rewrite B.
    apply tlv_make_tlv_ok in E0 as (_ & C & D). apply frame_of; [assumption|]. rewrite D.
    apply aead_wire_eq; assumption.
  - destruct W as [Wa Ww]. apply tlv_make_tlv_ok in H as (_ & A & B). apply frame_of; [assumption|]. rewrite B.
    apply tlv_make_tlv_ok in E1 as (_ & C & D). apply frame_of; [assumption|]. rewrite D.
    rewrite (aead_wire_eq _ _ Wa E), flatten_some. f_equal.
    destruct w as [w|]; cbn [optM] in E0; mon; subst.
    + rewrite flatten_some. cbn [flatten opt_bytes]. rewrite app_nil_r. apply wrapper_wire_eq; auto.
    + reflexivity.
Qed.
Lemma man_wire_eq m w : man_wf m -> man_wire m = Ok w -> w = w_manifest m.
Proof.
  intros (W1 & W2) H. apply man_wire_ok in H as (l1 & t & l3 & O1 & E & O3 & _ & ->).
  rewrite !wires_app, wires_one. unfold w_manifest. f_equal; [|f_equal].
  - eapply opt_wire; [eassumption|]. intros; apply ctx_wire; auto.
  - destruct (m_node m); cbn [mnode_tlv mnode_wf] in *; [apply node_wire; assumption|apply octet_wire; assumption].
  - eapply opt_wire; [eassumption|]. intros; apply octet_wire; assumption.
Qed.

(** * Existence: what fits can be built *)

Definition hash_ok (h : hashv) : Prop := frameable (h_alg h) (h_val h).
Definition nonneg_o (o : option Z) : Prop := forall n, o = Some n -> 0 <= n.
Definition hash_ok_o (o : option hashv) : Prop := forall h, o = Some h -> hash_ok h.
Definition gd_valid (g : gdata) : Prop :=
  nonneg_o (gd_subtree_size g) /\ hash_ok_o (gd_subtree_digest g) /\ nonneg_o (gd_leaf_size g) /\
  hash_ok_o (gd_leaf_digest g) /\ nonneg_o (gd_nc_id g) /\ nonneg_o (gd_start g).

Lemma opt_exists {A} (enc : A -> res tlv) o :
  (forall a, o = Some a -> exists t, enc a = Ok t) -> exists l, opt_tlvs enc o l.
Proof.
  intros H. destruct o as [a|]; cbn; [|eauto]. destruct (H a eq_refl) as [t E]. eauto.
Qed.
Lemma list_exists {A} (enc : A -> res tlv) xs :
  (forall a, In a xs -> exists t, enc a = Ok t) -> exists l, mapM enc xs = Ok l.
Proof.
  induction xs as [|a xs IH]; intros H; [eexists; reflexivity|].
  destruct (H a (or_introl eq_refl)) as [t E]. destruct IH as [l El]; [intros; apply H; right; assumption|].
  cbn [mapM]. rewrite E. cbn [bind]. rewrite El. eexists; reflexivity.
Qed.
Lemma zlen_frame ty v : zlen (frame ty v) = 4 + zlen v.
Proof. unfold frame. rewrite zlen_app. reflexivity. Qed.
Lemma make_wires ty l : 0 <= ty < 65536 -> Forall tlv_ok l -> zlen (wires l) < 65536 ->
  exists t, tlv_make ty (wires l) = Ok t.
Proof.
  intros H1 H2 H3. eexists. apply tlv_make_intro. split; [exact H1|]. split; [exact H3|].
  apply bytes_ok_wires; assumption.
Qed.
Lemma htt_exists ty h : 0 <= ty < 65536 -> hash_ok h -> zlen (w_hash_in ty h) < 65540 ->
  exists t, htt_tlv ty h = Ok t.
Proof.
  intros Ht Hh Hl. unfold htt_tlv, hashv_tlv. apply frameable_ok in Hh.
  rewrite tlv_make_intro by assumption. cbn [bind]. unfold w_hash_in in Hl. rewrite zlen_frame in Hl.
  eexists. apply tlv_make_intro. split; [exact Ht|]. split; [|apply tlv_wire_ok; assumption].
  unfold tlv_length; cbn [t_val]. rewrite frame_wire. cbn [t_type t_val]. fold (w_hash h). lia.
Qed.
Lemma zlen_opt_bytes {A} (f : A -> list Z) o a : o = Some a -> zlen (f a) = zlen (opt_bytes f o).
Proof. intros ->. reflexivity. Qed.
Ltac oi l O := match goal with |- context [wire_opt ?e ?o] =>
  apply wire_opt_intro in O; let w := fresh "w" in let F := fresh "F" in destruct O as (w & -> & F); cbn [bind] end.

Lemma gd_exists g : gd_valid g -> gd_wf g -> zlen (w_group_data g) < 65540 -> exists t, gd_tlv g = Ok t.
Proof.
  intros (V1 & V2 & V3 & V4 & V5 & V6) (W1 & W2 & W3 & W4) Hl.
  unfold w_group_data in Hl. rewrite zlen_frame, !zlen_app in Hl.
  assert (P : forall A (f : A -> list Z) o, 0 <= zlen (opt_bytes f o)) by (intros; apply zlen_nonneg).
  pose proof (P _ (uint_frame 2) (gd_subtree_size g)). pose proof (P _ (w_hash_in 3) (gd_subtree_digest g)).
  pose proof (P _ (uint_frame 0) (gd_leaf_size g)). pose proof (P _ (w_hash_in 1) (gd_leaf_digest g)).
  pose proof (P _ (uint_frame 5) (gd_nc_id g)). pose proof (P _ (uint_frame 4) (gd_start g)).
  assert (Hh : forall ty o a, 0 <= ty < 65536 -> hash_ok_o o -> zlen (opt_bytes (w_hash_in ty) o) < 65540 -> o = Some a -> exists t, htt_tlv ty a = Ok t).
  { intros ty o a Hty Ho Hz Hs. apply htt_exists; [assumption|auto|]. rewrite (zlen_opt_bytes (w_hash_in ty) o a Hs). assumption. }
  destruct (opt_exists (int_tlv T_SUBTREE_SIZE) (gd_subtree_size g)) as [l1 O1].
  { intros a Ha. apply int_tlv_intro; [unfold T_SUBTREE_SIZE; lia|auto]. }
  destruct (opt_exists (htt_tlv T_SUBTREE_DIGEST) (gd_subtree_digest g)) as [l2 O2].
  { intros a Ha. apply (Hh T_SUBTREE_DIGEST (gd_subtree_digest g)); [unfold T_SUBTREE_DIGEST; lia|assumption|unfold T_SUBTREE_DIGEST; lia|assumption]. }
  destruct (opt_exists (int_tlv T_LEAF_SIZE) (gd_leaf_size g)) as [l3 O3].
  { intros a Ha. apply int_tlv_intro; [unfold T_LEAF_SIZE; lia|auto]. }
  destruct (opt_exists (htt_tlv T_LEAF_DIGEST) (gd_leaf_digest g)) as [l4 O4].
  { intros a Ha. apply (Hh T_LEAF_DIGEST (gd_leaf_digest g)); [unfold T_LEAF_DIGEST; lia|assumption|unfold T_LEAF_DIGEST; lia|assumption]. }
  destruct (opt_exists (int_tlv T_NCID) (gd_nc_id g)) as [l5 O5].
  { intros a Ha. apply int_tlv_intro; [unfold T_NCID; lia|auto]. }
  destruct (opt_exists (int_tlv T_START_SEGMENT_ID) (gd_start g)) as [l6 O6].
  { intros a Ha. apply int_tlv_intro; [unfold T_START_SEGMENT_ID; lia|auto]. }
  assert (Hall : Forall tlv_ok (l1 ++ l2 ++ l3 ++ l4 ++ l5 ++ l6)).
  { rewrite !Forall_app. repeat split; (eapply opt_tlvs_ok; [|eassumption]; eauto). }
  assert (Hw : wires (l1 ++ l2 ++ l3 ++ l4 ++ l5 ++ l6) =
     opt_bytes (uint_frame 2) (gd_subtree_size g) ++ opt_bytes (w_hash_in 3) (gd_subtree_digest g) ++
     opt_bytes (uint_frame 0) (gd_leaf_size g) ++ opt_bytes (w_hash_in 1) (gd_leaf_digest g) ++
     opt_bytes (uint_frame 5) (gd_nc_id g) ++ opt_bytes (uint_frame 4) (gd_start g)).
  { rewrite !wires_app. repeat (f_equal; [ow|]). ow. }
  unfold gd_tlv. oi l1 O1. oi l2 O2. oi l3 O3. oi l4 O4. oi l5 O5. oi l6 O6.
  rewrite F, F0, F1, F2, F3, F4. cbn [flatten]. rewrite app_nil_r, <- !wires_app.
  apply make_wires; [unfold T_GROUP_DATA; lia|assumption|]. rewrite Hw, !zlen_app. lia.
Qed.
Lemma ptrs_exists hs : Forall hash_ok hs -> zlen (w_pointers hs) < 65540 -> exists t, ptrs_tlv hs = Ok t.
Proof.
  intros Hh Hl. rewrite Forall_forall in Hh. destruct (list_exists hashv_tlv hs) as [l El].
  { intros a Ha. specialize (Hh a Ha). apply frameable_ok in Hh. eexists. apply tlv_make_intro. exact Hh. }
  unfold ptrs_tlv. rewrite El. cbn [bind]. change concat_wires with wires. apply make_wires; [unfold T_PTRS; lia| |].
  - eapply mapM_tlv_ok; [|eassumption]; eauto.
  - unfold w_pointers in Hl. rewrite zlen_frame in Hl.
    rewrite (list_wire hashv_tlv w_hash hs l El); [lia|]. intros; apply hash_wire; assumption.
Qed.
Definition hg_valid (h : hgroup) : Prop :=
  (forall g, hg_data h = Some g -> gd_valid g) /\ (forall ps, hg_ptrs h = Some ps -> Forall hash_ok ps).
Lemma hg_exists h : hg_valid h -> hg_wf h -> zlen (w_hash_group h) < 65540 -> exists t, hg_tlv h = Ok t.
Proof.
  intros (V1 & V2) W Hl. unfold w_hash_group in Hl. rewrite zlen_frame, zlen_app in Hl.
  pose proof (zlen_nonneg (opt_bytes w_group_data (hg_data h))). pose proof (zlen_nonneg (opt_bytes w_pointers (hg_ptrs h))).
  destruct (opt_exists gd_tlv (hg_data h)) as [l1 O1].
  { intros a Ha. apply gd_exists; auto. rewrite (zlen_opt_bytes w_group_data _ _ Ha). lia. }
  destruct (opt_exists ptrs_tlv (hg_ptrs h)) as [l2 O2].
  { intros a Ha. apply ptrs_exists; auto. rewrite (zlen_opt_bytes w_pointers _ _ Ha). lia. }
  assert (Hall : Forall tlv_ok (l1 ++ l2)).
  { rewrite !Forall_app. repeat split; (eapply opt_tlvs_ok; [|eassumption]; eauto). }
  assert (Hw : wires (l1 ++ l2) = opt_bytes w_group_data (hg_data h) ++ opt_bytes w_pointers (hg_ptrs h)).
  { rewrite wires_app. f_equal; (eapply opt_wire; [eassumption|]); intros; [apply gd_wire; auto|apply ptrs_wire; assumption]. }
  unfold hg_tlv. oi l1 O1. oi l2 O2. rewrite F, F0. cbn [flatten]. rewrite app_nil_r, <- wires_app.
  apply make_wires; [unfold T_HASH_GROUP; lia|assumption|]. rewrite Hw, zlen_app. lia.
Qed.

(** * C13: pointers *)

(* every list of hash values that fits one TLV is written in order and read back *)
Theorem C13_pointers_roundtrip : forall hs,
  Forall (fun h => frameable (h_alg h) (h_val h)) hs -> zlen (w_pointers hs) < 65540 ->
  exists t, ptrs_tlv hs = Ok t /\ tlv_wire t = w_pointers hs /\ ptrs_parse t = Ok hs.
Proof.
  intros hs Hh Hl. destruct (ptrs_exists hs Hh Hl) as [t E]. exists t. split; [assumption|].
  split; [apply ptrs_wire; assumption|apply ptrs_roundtrip; assumption].
Qed.
(* what is accepted is exactly a sequence of whole hash TLVs *)
Theorem C13_torn_refused : forall t hs, frameable (t_type t) (t_val t) -> ptrs_parse t = Ok hs ->
  t_type t = 7 /\ t_val t = flat_map w_hash hs.
Proof.
  intros t hs Ht H. apply frameable_ok in Ht. apply ptrs_parse_sound in H; [|destruct t; assumption].
  apply ptrs_tlv_ok in H as (_ & A & l & Hl & Hv). split; [assumption|]. rewrite Hv.
  eapply list_wire; [eassumption|]. intros; apply hash_wire; assumption.
Qed.
Theorem C13_torn_exn : forall v, all_bytes v -> zlen v < 65536 ->
  (forall l, (forall p, In p l -> frameable (fst p) (snd p)) -> frames l <> v) ->
  ptrs_parse (mkTlv 7 v) = Err ParseError.
Proof.
  intros v Hb Hl Hn.
  assert (Ho : tlv_ok (mkTlv 7 v)) by (apply frameable_ok; split; [lia|split; assumption]).
  assert (X : forall fuel s buf, bytes_ok buf -> (length buf <= fuel)%nat ->
     (forall l, Forall tlv_ok l -> wires l <> buf) -> tlv_loop fuel ptrs_step s buf = Err ParseError).
  { induction fuel as [|fuel IH]; intros s buf Hbuf Hf Hw.
    - destruct buf; [exfalso; apply (Hw []); [constructor|reflexivity]|cbn in Hf; lia].
    - destruct buf as [|b buf]; [exfalso; apply (Hw []); [constructor|reflexivity]|].
      remember (b :: buf) as bb. assert (tlv_loop (S fuel) ptrs_step s bb =
         (t <- tlv_deserialize bb ;; s' <- ptrs_step s t ;; tlv_loop fuel ptrs_step s' (zskip (tlv_len t) bb))) as ->.
      { subst bb. reflexivity. }
      destruct (tlv_deserialize bb) as [t|e] eqn:E; cbn [bind].
      + apply tlv_deserialize_inv in E; [|assumption]. destruct E as (Ht & E). remember (zskip (tlv_len t) bb) as rest. clear Heqrest. clear Heqbb. subst bb.
        unfold ptrs_step, hashv_parse, hashv_tlv. cbn [h_alg h_val].
        rewrite tlv_make_intro by (destruct t; assumption). cbn [bind].
        apply IH.
        * apply bytes_ok_app in Hbuf. tauto.
        * rewrite app_length in Hf. pose proof (zlen_tlv_wire t). pose proof (tlv_len_ge t). unfold zlen in *. lia.
        * intros l Hlo El. apply (Hw (t :: l)); [constructor; assumption|]. rewrite wires_cons, El. reflexivity.
      + f_equal. apply tlv_deserialize_err in E; assumption. }
  unfold ptrs_parse. cbn [t_type t_val]. change (7 =? T_PTRS) with true. cbn [guard bind].
  unfold tlv_foreach. rewrite X; [reflexivity|apply Ho|lia|].
  intros l Hlo El. apply (Hn (map (fun t => (t_type t, t_val t)) l)).
  - intros p Hp. apply in_map_iff in Hp as (t & <- & Hin). rewrite Forall_forall in Hlo. specialize (Hlo t Hin).
    apply frameable_ok. destruct t; assumption.
  - rewrite frames_wires, map_map. cbn. rewrite (map_ext _ (fun t => t)), map_id; [assumption|intros []; reflexivity].
Qed.
Definition ex_hashes := [mkHash 1 [1;2;3]; mkHash 2 [255]; mkHash 1 []].
Example C13_ex : exists t, ptrs_tlv ex_hashes = Ok t /\ ptrs_parse t = Ok ex_hashes /\ tlv_len t = 20.
Proof. eexists; split; [vm_compute; reflexivity|]. split; [vm_compute; reflexivity|vm_compute; reflexivity]. Qed.
Example C13_ex_torn : ptrs_parse (mkTlv 7 [0;1;0;2;9]) = Err ParseError.
Proof. vm_compute. reflexivity. Qed.

(** * C14: group data and hash group *)

Theorem C14_group_data_exists : forall g, gd_valid g -> gd_wf g -> zlen (w_group_data g) < 65540 ->
  exists t, gd_tlv g = Ok t.
Proof. exact gd_exists. Qed.
Theorem C14_group_data_roundtrip : forall g t, gd_wf g -> gd_tlv g = Ok t ->
  tlv_wire t = w_group_data g /\ gd_parse t = Ok g.
Proof. intros g t W H. split; [apply gd_wire; assumption|apply gd_roundtrip; assumption]. Qed.
Theorem C14_hash_group_exists : forall h, hg_valid h -> hg_wf h -> zlen (w_hash_group h) < 65540 ->
  exists t, hg_tlv h = Ok t.
Proof. exact hg_exists. Qed.
Theorem C14_hash_group_roundtrip : forall h t, hg_wf h -> hg_tlv h = Ok t ->
  tlv_wire t = w_hash_group h /\ hg_parse t = Ok h.
Proof. intros h t W H. split; [apply hg_wire; assumption|apply hg_roundtrip; assumption]. Qed.
Definition ex_gd := mkGD (Some 70000) (Some (mkHash 1 [9;9])) None (Some (mkHash 2 [8])) (Some 3) (Some 0).
Definition ex_hg := mkHG (Some ex_gd) (Some ex_hashes).
Example C14_ex : gd_valid ex_gd /\ hg_wf ex_hg /\ exists t, hg_tlv ex_hg = Ok t /\ hg_parse t = Ok ex_hg.
Proof.
  split; [|split].
  - unfold gd_valid, nonneg_o, hash_ok_o. cbn [ex_gd gd_subtree_size gd_subtree_digest gd_leaf_size gd_leaf_digest gd_nc_id gd_start].
    split; [intros n [= <-]; lia|].
    split; [intros h [= <-]; split; [cbn; lia|split; [cbn; lia|intros b [<-|[<-|[]]]; lia]]|].
    split; [intros n [=]|].
    split; [intros h [= <-]; split; [cbn; lia|split; [cbn; lia|intros b [<-|[]]; lia]]|].
    split; intros n [= <-]; lia.
  - intros g H. injection H as <-. unfold gd_wf, u64o; cbn. repeat split; intros n Hn; try discriminate; injection Hn as <-; reflexivity.
  - eexists; split; [vm_compute; reflexivity|vm_compute; reflexivity].
Qed.

(** * C15: node data and node *)

(* equal objects; names are compared by the content of their components (the
   Python type of a component value changes, see C07) *)
Definition same_opt {A} (R : A -> A -> Prop) (a b : option A) : Prop :=
  match a, b with Some x, Some y => R x y | None, None => True | _, _ => False end.
Definition same_link (a b : link) : Prop :=
  same_name (l_name a) (l_name b) /\ l_keyid a = l_keyid b /\ l_digest a = l_digest b.
Definition same_locs := same_opt (Forall2 same_link).
Definition same_schema (a b : schema) : Prop :=
  match a, b with
  | SHash l f, SHash l' f' => same_locs l l' /\ f = f'
  | SPrefix n l f, SPrefix n' l' f' => same_name n n' /\ same_locs l l' /\ f = f'
  | SSeg n x l f, SSeg n' x' l' f' => same_name n n' /\ x = x' /\ same_locs l l' /\ f = f'
  | _, _ => False
  end.
Definition same_ncdef (a b : ncdef) : Prop := nd_id a = nd_id b /\ same_opt same_schema (nd_schema a) (nd_schema b).
Definition same_nd (a b : ndata) : Prop :=
  nd_size a = nd_size b /\ nd_digest a = nd_digest b /\ same_locs (nd_locators a) (nd_locators b) /\
  nd_vendors a = nd_vendors b /\ Forall2 same_ncdef (nd_ncdefs a) (nd_ncdefs b).
(* the same node, apart from padding *)
Definition same_node (a b : node) : Prop :=
  same_opt same_nd (n_data a) (n_data b) /\ n_groups a = n_groups b.

Lemma same_opt_norm {A} (R : A -> A -> Prop) f o : (forall a, R (f a) a) -> same_opt R (option_map f o) o.
Proof. intros H. destruct o; cbn; auto. Qed.
Lemma forall2_norm {A} (R : A -> A -> Prop) f l : (forall a, R (f a) a) -> Forall2 R (map f l) l.
Proof. intros H. induction l; constructor; auto. Qed.
Lemma same_link_norm l : same_link (link_norm l) l.
Proof. split; [apply same_name_norm|split; reflexivity]. Qed.
Lemma same_locs_norm o : same_locs (option_map locs_norm o) o.
Proof. apply same_opt_norm. intros; apply forall2_norm, same_link_norm. Qed.
Lemma same_schema_norm s : same_schema (schema_norm s) s.
Proof.
  destruct s; cbn; repeat split; try apply same_name_norm; apply same_locs_norm.
Qed.
Lemma same_ncdef_norm d : same_ncdef (ncdef_norm d) d.
Proof. split; [reflexivity|]. apply same_opt_norm, same_schema_norm. Qed.
Lemma same_nd_norm d : same_nd (nd_norm d) d.
Proof. repeat split; [apply same_locs_norm|]. apply forall2_norm, same_ncdef_norm. Qed.
Lemma same_node_norm n : same_node (node_norm n) n.
Proof. split; [|reflexivity]. apply same_opt_norm, same_nd_norm. Qed.

Theorem C15_node_data_roundtrip : forall d t, nd_wf d -> nd_tlv d = Ok t ->
  tlv_wire t = w_node_data d /\ exists d', nd_parse t = Ok d' /\ same_nd d' d /\ nd_tlv d' = Ok t.
Proof.
  intros d t W H. split; [apply nd_wire; assumption|]. exists (nd_norm d).
  split; [apply nd_roundtrip; assumption|]. split; [apply same_nd_norm|]. rewrite nd_tlv_norm. assumption.
Qed.
Theorem C15_node_roundtrip : forall n t, node_wf n -> n_pad n = None -> node_tlv n = Ok t ->
  tlv_wire t = w_node n /\ exists n', node_parse t = Ok n' /\ same_node n' n /\ n_pad n' = None /\ node_tlv n' = Ok t.
Proof.
  intros n t W Hp H. split; [apply node_wire; assumption|]. exists (node_norm n).
  split; [apply node_roundtrip; assumption|]. split; [apply same_node_norm|]. split; [reflexivity|].
  rewrite node_norm_unpad. destruct n; cbn in *; subst; assumption.
Qed.
(* a node can be built from any non-empty list of valid groups that fits *)
Theorem C15_node_exists : forall gs, gs <> [] ->
  (forall h, In h gs -> hg_valid h /\ hg_wf h) -> zlen (w_node (mkNode None gs None)) < 65540 ->
  exists t, node_tlv (mkNode None gs None) = Ok t.
Proof.
  intros gs Hn Hv Hl. unfold w_node, w_node_body in Hl. cbn [n_data n_groups n_pad opt_bytes app] in Hl.
  rewrite app_nil_r, zlen_frame in Hl.
  assert (Hz : forall h, In h gs -> zlen (w_hash_group h) <= zlen (flat_map w_hash_group gs)).
  { clear. intros h. induction gs as [|g gs IH]; [intros []|]. intros [->|Hin]; cbn [flat_map]; rewrite zlen_app.
    - pose proof (zlen_nonneg (flat_map w_hash_group gs)). lia.
    - specialize (IH Hin). pose proof (zlen_nonneg (w_hash_group g)). lia. }
  destruct (list_exists hg_tlv gs) as [l El].
  { intros h Hin. destruct (Hv h Hin). specialize (Hz h Hin). apply hg_exists; auto. lia. }
  unfold node_tlv, node_value. cbn [n_data n_groups n_pad wire_opt bind].
  replace (zlen gs =? 0) with false by (destruct gs; [congruence|rewrite zlen_cons; pose proof (zlen_nonneg gs); lia]).
  cbn [negb guard bind]. rewrite El. cbn [bind]. change concat_wires with wires.
  change (flatten [None; Some (wires l)]) with (wires l ++ []). rewrite app_nil_r.
  apply make_wires; [unfold T_NODE; lia| |].
  - eapply mapM_tlv_ok; [|eassumption]; eauto.
  - rewrite (list_wire hg_tlv w_hash_group gs l El); [lia|]. intros a u Hin E. apply hg_wire; [apply Hv; assumption|assumption].
Qed.
Definition ex_link := mkLink (Some ex_name) None (Some (mkHash 1 [1])).
Definition ex_nd := mkND (Some 5) (Some (mkHash 1 [4])) (Some [ex_link]) [mkVendor 70000 [1;2]]
  [mkNcDef (Some 1) (Some (SSeg (Some ex_name) (Some 0x1000) (Some [ex_link; ex_link]) None));
   mkNcDef (Some 2) (Some (SHash (Some [ex_link]) None)); mkNcDef (Some 300) (Some (SPrefix (Some ex_name) None None))].
Definition ex_node := mkNode (Some ex_nd) [ex_hg; mkHG None (Some ex_hashes)] None.
Lemma ex_node_wf : node_wf ex_node.
Proof.
  split.
  - intros d [= <-]. split; [intros n [= <-]; reflexivity|]. repeat constructor; intros n [= <-]; reflexivity.
  - constructor; [|constructor; [|constructor]].
    + intros g [= <-]. unfold gd_wf, u64o; cbn. repeat split; intros n Hn; try discriminate; injection Hn as <-; reflexivity.
    + intros g [=].
Qed.
Example C15_ex : node_wf ex_node /\ exists t, node_tlv ex_node = Ok t.
Proof. split; [apply ex_node_wf|]. eexists. vm_compute. reflexivity. Qed.

(** * C16: manifests *)

Definition same_wrapper (a b : wrapper) : Prop :=
  w_keyid a = w_keyid b /\ same_opt same_link (w_keylink a) (w_keylink b) /\
  w_hashalg a = w_hashalg b /\ w_key a = w_key b.
Definition same_ctx (a b : secctx) : Prop :=
  match a, b with
  | CAead x, CAead y => x = y
  | CRsa x w, CRsa y v => x = y /\ same_opt same_wrapper w v
  | _, _ => False
  end.
Definition same_mnode (a b : mnode) : Prop :=
  match a, b with MNode x, MNode y => same_node x y | MEnc x, MEnc y => x = y | _, _ => False end.
Definition same_manifest (a b : manifest) : Prop :=
  same_opt same_ctx (m_ctx a) (m_ctx b) /\ same_mnode (m_node a) (m_node b) /\ m_tag a = m_tag b.
Definition unpadded (m : manifest) : Prop := forall n, m_node m = MNode n -> n_pad n = None.

Lemma same_ctx_norm c : same_ctx (ctx_norm c) c.
Proof.
  destruct c as [a|a w]; cbn; [reflexivity|]. split; [reflexivity|]. apply same_opt_norm.
  intros x. repeat split. apply same_opt_norm, same_link_norm.
Qed.
Lemma same_man_norm m : same_manifest (man_norm m) m.
Proof.
  split; [|split]; [apply same_opt_norm, same_ctx_norm| |reflexivity].
  cbn [man_norm m_node]. destruct (m_node m); cbn; [apply same_node_norm|reflexivity].
Qed.

Theorem C16_manifest_roundtrip : forall m w, man_wf m -> man_wire m = Ok w ->
  w = w_manifest m /\
  exists m', man_deserialize w = Ok m' /\ same_manifest m' m /\ (unpadded m -> man_wire m' = Ok w).
Proof.
  intros m w W H. split; [apply man_wire_eq; assumption|]. exists (man_norm m).
  split; [apply man_roundtrip; assumption|]. split; [apply same_man_norm|].
  intros Hp. rewrite man_norm_wire_eq; assumption.
Qed.
(* carried as the payload of a content object in a packet *)
Theorem C16_manifest_packet : forall now m n e p w,
  man_wf m -> (forall f, e = Some f -> wire_time f) ->
  man_packet m n e = Ok p -> packet_wire p = Ok w ->
  exists p' c m', packet_deserialize now w = Ok p' /\ p_body p' = BCO c /\ same_name (co_name c) n /\
    co_ptype c = Some 3 /\ man_from_content c = Ok m' /\ same_manifest m' m.
Proof.
  intros now m n e p w W He H Hw. unfold man_packet in H. apply bind_ok in H as (c & E & H).
  unfold man_content in E. apply bind_ok in E as (b & Eb & E). apply bind_ok in E as (? & _ & E).
  apply bind_ok in E as (? & _ & E). apply Ok_inj in E.
  assert (Wc : wire_content c) by (subst c; split; cbn; [exact He|intros; discriminate]).
  destruct (C09_unsigned_packet_roundtrip now c p w Wc H Hw) as (_ & p' & Hd & Hs & _).
  unfold create_content_object in H. apply bind_ok in H as (? & _ & H). apply bind_ok in H as (? & _ & H). apply Ok_inj in H.
  destruct Hs as (_ & _ & _ & c' & cb & Ep & Ecb & S1 & S2 & S3 & _). subst p. cbn [p_body] in Ecb.
  injection Ecb as <-.
  exists p', c', (man_norm m). split; [assumption|]. split; [exact Ep|]. subst c. cbn [co_name co_ptype co_payload] in *.
  split; [assumption|]. split; [assumption|]. split; [|apply same_man_norm].
  unfold man_from_content. rewrite S2, S3. change (PT_MANIFEST =? PT_MANIFEST) with true. cbn [guard bind].
  apply man_roundtrip; assumption.
Qed.
Definition ex_aead := mkAead 55 [1;2;3;4;5;6;7;8;9;10;11;12] (Some 2) (Some (mkKdf 1 (Some [7]))).
Definition ex_ctx := CRsa ex_aead (Some (mkWrap (mkHash 1 [3;3]) (Some ex_link) (Some 1) (Some [5;5;5]))).
Definition ex_man_enc := mkMan (Some ex_ctx) (MEnc [1;2;3;4;5]) (Some [9;9]).
Definition ex_man := mkMan None (MNode ex_node) None.
Example C16_ex : man_wf ex_man_enc /\ man_wf ex_man /\
  (exists w, man_wire ex_man_enc = Ok w) /\ (exists w, man_wire ex_man = Ok w) /\
  exists p w, man_packet ex_man (Some ex_name) None = Ok p /\ packet_wire p = Ok w.
Proof.
  split; [|split; [|split; [|split]]].
  - split; [|exact I]. intros c [= <-]. split; [|intros x [= <-]; intros n [= <-]; reflexivity].
    split; [reflexivity|]. split; [intros n [= <-]; reflexivity|intros k [= <-]; reflexivity].
  - split; [intros c [=]|exact ex_node_wf].
  - eexists. vm_compute. reflexivity.
  - eexists. vm_compute. reflexivity.
  - do 2 eexists. split; [vm_compute; reflexivity|vm_compute; reflexivity].
Qed.

(** * C17: padding *)

Theorem C17_padding_exact : forall d gs p t0 t,
  node_tlv (mkNode d gs None) = Ok t0 -> node_tlv (mkNode d gs (Some p)) = Ok t ->
  (tlv_len t0 + 4 <= p -> zlen (tlv_wire t) = p) /\ (p < tlv_len t0 + 4 -> t = t0).
Proof.
  intros d gs p t0 t H0 H. apply node_tlv_ok in H0 as (Ho0 & Ht0 & _ & Hv0). apply node_tlv_ok in H as (Ho & Ht & _ & Hv).
  pose proof (node_value_ok _ _ Hv0) as (l1 & l2 & l3 & O1 & M2 & _ & W0 & _ & P0). cbn [n_pad] in P0. subst l3.
  pose proof (node_value_ok _ _ Hv) as (l1' & l2' & l3' & O1' & M2' & _ & W & _ & P).
  cbn [n_data n_groups n_pad] in *.
  assert (l1' = l1) as -> by (destruct d; cbn in O1, O1'; [destruct O1 as (? & ? & ->), O1' as (? & ? & ->)|]; congruence).
  assert (l2' = l2) as -> by congruence. cbn zeta in P. rewrite app_nil_r in W0.
  assert (L : tlv_len t0 = 4 + zlen (wires (l1 ++ l2))) by (unfold tlv_len, tlv_length; rewrite W0; reflexivity).
  split; intros Hp.
  - replace (_ <=? p) with true in P by lia. rewrite zlen_tlv_wire. unfold tlv_len, tlv_length. exact P.
  - replace (_ <=? p) with false in P by lia. subst l3'. rewrite app_nil_r in W.
    destruct t as [ty v], t0 as [ty0 v0]; cbn [t_type t_val] in *. congruence.
Qed.
Theorem C17_padding_exists : forall d gs p t0, node_tlv (mkNode d gs None) = Ok t0 -> p < 65540 ->
  exists t, node_tlv (mkNode d gs (Some p)) = Ok t.
Proof.
  intros d gs p t0 H Hp. pose proof H as H0. unfold node_tlv, node_value in *. cbn [n_data n_groups n_pad] in *.
  inv_bind H. rewrite E. cbn [bind]. inv_bind H. inv_bind E0. rewrite E1. cbn [bind]. inv_bind E0. rewrite E2. cbn [bind].
  apply Ok_inj in E0. pose proof H as H1. apply tlv_make_tlv_ok in H1 as (Ho & Ht & Hv). subst a0. rewrite <- Hv in *.
  destruct (4 <=? p - (4 + zlen (t_val t0))) eqn:Ed; [|cbn [bind]; eauto].
  assert (Hr : tlv_ok (mkTlv T_PAD (repeat 0 (Z.to_nat (p - (4 + zlen (t_val t0)) - 4))))).
  { split; [cbn; unfold T_PAD; lia|]. split.
    - unfold tlv_length, zlen; cbn [t_val]. rewrite repeat_length. pose proof (zlen_nonneg (t_val t0)). lia.
    - cbn [t_val]. apply Forall_forall. intros x Hx. apply repeat_spec in Hx. lia. }
  unfold pad_tlv, octet_tlv. replace (0 <=? _) with true by lia. cbn [guard bind].
  rewrite (tlv_make_intro _ _ Hr). cbn [bind].
  remember (tlv_wire _) as pw in |- *.
  assert (flatten [a1; Some (concat_wires a2); Some pw] = t_val t0 ++ pw) as ->.
  { rewrite Hv. destruct a1; cbn [flatten]; rewrite ?app_nil_r, <- ?app_assoc; reflexivity. }
  eexists. apply tlv_make_intro. split; [cbn; unfold T_NODE; lia|]. split.
  - unfold tlv_length; cbn [t_val]. rewrite zlen_app. subst pw. rewrite zlen_tlv_wire. unfold tlv_len, tlv_length, zlen.
    cbn [t_val]. rewrite repeat_length. unfold zlen in *. lia.
  - cbn [t_val]. apply bytes_ok_app. split; [apply Ho|]. subst pw. apply tlv_wire_ok. exact Hr.
Qed.
Theorem C17_padding_invisible : forall d gs p t0 t, node_wf (mkNode d gs None) ->
  node_tlv (mkNode d gs None) = Ok t0 -> node_tlv (mkNode d gs (Some p)) = Ok t ->
  exists n, node_parse t = Ok n /\ node_parse t0 = Ok n /\ same_node n (mkNode d gs None).
Proof.
  intros d gs p t0 t W H0 H. exists (node_norm (mkNode d gs None)).
  split; [|split; [apply node_roundtrip; assumption|apply same_node_norm]].
  change (node_norm (mkNode d gs None)) with (node_norm (mkNode d gs (Some p))). apply node_roundtrip; [exact W|assumption].
Qed.
(* but the padding itself is not kept: parsing and re-serializing a padded node
   changes its wire image, hence the hash of a manifest containing it *)
Theorem C17_padding_kept_refuted : exists n t n' t', node_tlv n = Ok t /\ node_parse t = Ok n' /\
  node_tlv n' = Ok t' /\ tlv_len t = 100 /\ tlv_len t' < 100.
Proof.
  exists (mkNode None [mkHG None (Some ex_hashes)] (Some 100)). do 3 eexists.
  split; [vm_compute; reflexivity|]. split; [vm_compute; reflexivity|]. split; [vm_compute; reflexivity|].
  split; [reflexivity|]. reflexivity.
Qed.

(** * C18: iteration order *)

(* what a group should yield: its pointers in order, numbered from the start id *)
Definition group_items (nc : Z) (start : option Z) (ps : list hashv) : list hiv :=
  map (fun ip => mkHiv nc (snd ip) (option_map (fun s => s + Z.of_nat (fst ip)) start))
      (combine (seq 0 (length ps)) ps).
(* a group that can be iterated: it has pointers, and a name constructor id if
   the list is not empty *)
Definition iterable (h : hgroup) (out : list hiv) : Prop :=
  exists ps, hg_ptrs h = Some ps /\
  (ps = [] /\ out = [] \/
   exists g nc, hg_data h = Some g /\ gd_nc_id g = Some nc /\ out = group_items nc (gd_start g) ps).

Lemma group_iter_ok g nc ps : gd_nc_id g = Some nc -> forall k,
  group_iter (Some g) (Z.of_nat k) ps =
  (map (fun ip => mkHiv nc (snd ip) (option_map (fun s => s + Z.of_nat (fst ip)) (gd_start g)))
     (combine (seq k (length ps)) ps), None).
Proof.
  intros Hn. induction ps as [|p ps IH]; intros k; [reflexivity|]. cbn [group_iter length seq combine map fst snd].
  rewrite Hn. replace (Z.of_nat k + 1) with (Z.of_nat (S k)) by lia. rewrite IH.
  unfold segment_id. destruct (gd_start g); reflexivity.
Qed.
Lemma node_iter_iterable h out gs : iterable h out ->
  node_iter (h :: gs) = (out ++ fst (node_iter gs), snd (node_iter gs)).
Proof.
  intros (ps & Hp & H). cbn [node_iter]. rewrite Hp. destruct H as [(-> & ->)|(g & nc & Hg & Hn & ->)].
  - cbn. destruct (node_iter gs); reflexivity.
  - rewrite Hg. pose proof (group_iter_ok g nc ps Hn 0) as X. cbn [Z.of_nat] in X. rewrite X.
    fold (group_items nc (gd_start g) ps). destruct (node_iter gs); reflexivity.
Qed.

Theorem C18_iteration_order : forall gs outs, Forall2 iterable gs outs ->
  node_iter gs = (concat outs, None).
Proof.
  induction 1 as [|h o gs os H _ IH]; [reflexivity|]. rewrite (node_iter_iterable h o gs H), IH. reflexivity.
Qed.
(* the first group whose pointers have no name constructor id raises, after
   everything before it has been yielded *)
Theorem C18_missing_nc_id : forall gs outs h p ps gs', Forall2 iterable gs outs ->
  hg_ptrs h = Some (p :: ps) -> (forall g, hg_data h = Some g -> gd_nc_id g = None) ->
  node_iter (gs ++ h :: gs') = (concat outs, Some ValueError).
Proof.
  intros gs outs h p ps gs' H Hp Hn. induction H as [|h0 o gs os H0 _ IH].
  - cbn [app node_iter]. rewrite Hp. cbn [group_iter]. destruct (hg_data h) as [g|]; [|reflexivity].
    rewrite (Hn g eq_refl). reflexivity.
  - cbn [app]. rewrite (node_iter_iterable h0 o _ H0), IH. reflexivity.
Qed.
(* every pointer exactly once, in order *)
Theorem C18_pointers_in_order : forall gs outs, Forall2 iterable gs outs ->
  map hi_hash (fst (node_iter gs)) = flat_map (fun h => match hg_ptrs h with Some ps => ps | None => [] end) gs /\
  node_hash_values gs = Ok (map hi_hash (fst (node_iter gs))).
Proof.
  intros gs outs H. rewrite (C18_iteration_order gs outs H). cbn [fst].
  assert (X : forall h o, iterable h o -> exists ps, hg_ptrs h = Some ps /\ map hi_hash o = ps).
  { intros h o (ps & Hp & Ho). exists ps. split; [assumption|]. destruct Ho as [(-> & ->)|(g & nc & _ & _ & ->)]; [reflexivity|].
    unfold group_items. rewrite map_map. cbn [hi_hash]. generalize 0%nat.
    induction ps as [|q ps IH]; intros k; [reflexivity|]. cbn [length seq combine map snd]. f_equal.
    clear - IH. revert k IH. induction ps as [|r ps IH']; intros k IH; [reflexivity|].
    assert (forall j (l : list hashv), map (fun x : nat * hashv => snd x) (combine (seq j (length l)) l) = l) as Y.
    { clear. intros j l. revert j. induction l as [|a l IHl]; intros j; [reflexivity|]. cbn. f_equal. apply IHl. }
    apply Y. }
  induction H as [|h o gs os H _ IH]; [split; reflexivity|].
  destruct (X h o H) as (ps & Hp & Ho). cbn [concat flat_map node_hash_values]. rewrite map_app, Hp, Ho.
  destruct IH as [IH1 IH2]. rewrite IH1 in *. split; [reflexivity|]. rewrite IH2. cbn [bind]. reflexivity.
Qed.
Example C18_ex : node_iter [ex_hg; mkHG None (Some [])] =
  ([mkHiv 3 (mkHash 1 [1;2;3]) (Some 0); mkHiv 3 (mkHash 2 [255]) (Some 1); mkHiv 3 (mkHash 1 []) (Some 2)], None) /\
  exists outs, Forall2 iterable [ex_hg; mkHG None (Some [])] outs.
Proof.
  split; [reflexivity|]. eexists [_; []]. constructor; [|constructor; [|constructor]].
  - eexists. split; [reflexivity|]. right. do 2 eexists. split; [reflexivity|]. split; reflexivity.
  - exists []. split; [reflexivity|]. left. split; reflexivity.
Qed.

(** * C10: the manifest decoders are total *)

Definition flic_error (e : exn) : Prop :=
  In e [ValueError; ParseError; CannotParseError; RuntimeError; AssertionError; TypeError; OverflowError].
Lemma errs_total {A} (m : res A) : errs m flic_exns -> (exists a, m = Ok a) \/ (exists e, m = Err e /\ flic_error e).
Proof. intros H. destruct m as [|e]; [left; eauto|right; exists e; split; [reflexivity|exact (H e eq_refl)]]. Qed.
Lemma frameable_tlv t : frameable (t_type t) (t_val t) -> tlv_ok t.
Proof. intros H. apply frameable_ok in H. destruct t; assumption. Qed.

Theorem C10_manifest_decoder_total : forall b, all_bytes b ->
  (exists m, man_deserialize b = Ok m) \/ (exists e, man_deserialize b = Err e /\ flic_error e).
Proof. intros b H. apply errs_total, man_deserialize_errs, all_bytes_ok, H. Qed.
Theorem C10_node_decoder_total : forall t, frameable (t_type t) (t_val t) ->
  (exists n, node_parse t = Ok n) \/ (exists e, node_parse t = Err e /\ flic_error e).
Proof. intros t H. apply errs_total, node_parse_errs, frameable_tlv, H. Qed.
Theorem C10_node_data_decoder_total : forall t, frameable (t_type t) (t_val t) ->
  (exists n, nd_parse t = Ok n) \/ (exists e, nd_parse t = Err e /\ flic_error e).
Proof. intros t H. apply errs_total, nd_parse_errs, frameable_tlv, H. Qed.
Theorem C10_hash_group_decoder_total : forall t, frameable (t_type t) (t_val t) ->
  (exists h, hg_parse t = Ok h) \/ (exists e, hg_parse t = Err e /\ flic_error e).
Proof.
  intros t H. apply errs_total. eapply errs_incl; [apply hg_parse_errs, frameable_tlv, H|]. intros e He. cbn in *; tauto.
Qed.
Example C10_manifest_ex :
  man_deserialize [0;1;0;4;0;1;0;0] = Ok (mkMan None (MNode (mkNode None [mkHG None None] None)) None) /\
  man_deserialize [0;1;0;5;0;1;0;0] = Err ParseError /\ all_bytes [0;1;0;5;0;1;0;0].
Proof. split; [vm_compute; reflexivity|]. split; [vm_compute; reflexivity|]. unfold all_bytes; intros b Hb; cbn in Hb; intuition lia. Qed.

(** * C11: serialization is a normal form *)

Theorem C11_group_data_normal_form : forall t g, gd_parse t = Ok g -> gd_wf g ->
  exists t', gd_tlv g = Ok t' /\ gd_parse t' = Ok g.
Proof. intros t g H W. destruct (gd_parse_sound _ _ H) as [t' E]. exists t'. split; [assumption|apply gd_roundtrip; assumption]. Qed.
Theorem C11_pointers_normal_form : forall t l, frameable (t_type t) (t_val t) -> ptrs_parse t = Ok l -> ptrs_tlv l = Ok t.
Proof. intros t l Ht H. apply ptrs_parse_sound; [apply frameable_tlv|]; assumption. Qed.
Theorem C11_hash_group_normal_form : forall t h, hg_parse t = Ok h -> hg_wf h ->
  exists t', hg_tlv h = Ok t' /\ hg_parse t' = Ok h.
Proof. intros t g H W. destruct (hg_parse_sound _ _ H) as [t' E]. exists t'. split; [assumption|apply hg_roundtrip; assumption]. Qed.
Theorem C11_node_data_normal_form : forall t d, frameable (t_type t) (t_val t) -> nd_parse t = Ok d -> nd_wf d ->
  exists t', nd_tlv d = Ok t' /\ nd_parse t' = Ok d.
Proof.
  intros t d Ht H W. destruct (nd_parse_sound _ _ H) as [t' E]. exists t'. split; [assumption|].
  rewrite (nd_roundtrip _ _ W E). f_equal. eapply nd_parse_norm; [apply frameable_tlv|]; eassumption.
Qed.
Theorem C11_node_normal_form : forall t n, frameable (t_type t) (t_val t) -> node_parse t = Ok n -> node_wf n ->
  exists t', node_tlv n = Ok t' /\ node_parse t' = Ok n.
Proof.
  intros t d Ht H W. destruct (node_parse_sound _ _ H) as [t' E]. exists t'. split; [assumption|].
  rewrite (node_roundtrip _ _ W E). f_equal. eapply node_parse_norm; [apply frameable_tlv|]; eassumption.
Qed.
Theorem C11_manifest_normal_form : forall b m, all_bytes b -> man_deserialize b = Ok m -> man_wf m ->
  exists w, man_wire m = Ok w /\ man_deserialize w = Ok m.
Proof.
  intros b m Hb H W. apply all_bytes_ok in Hb. destruct (man_deserialize_sound _ _ H) as [w E]. exists w. split; [assumption|].
  rewrite (man_roundtrip _ _ W E). f_equal. eapply man_deserialize_norm; eassumption.
Qed.
(* the side condition (integers below 2^64) matters: a nine byte integer is
   accepted, kept exactly, and written back modulo 2^64 *)
Theorem C11_normal_form_refuted : exists t g t' g',
  frameable (t_type t) (t_val t) /\ gd_parse t = Ok g /\ gd_tlv g = Ok t' /\ gd_parse t' = Ok g' /\
  gd_leaf_size g = Some (2 ^ 64 + 5) /\ gd_leaf_size g' = Some 5.
Proof.
  exists (mkTlv 11 [0;0;0;9;1;0;0;0;0;0;0;0;5]). do 3 eexists.
  split; [split; [cbn; lia|split; [reflexivity|intros b Hb; cbn in Hb; intuition lia]]|].
  do 3 (split; [vm_compute; reflexivity|]). split; reflexivity.
Qed.
Example C11_flic_ex : exists n, node_parse (mkTlv 1 [0;1;0;16;0;11;0;5;0;5;0;1;7;0;99;0;3;1;2;3]) = Ok n /\ node_wf n.
Proof.
  eexists; split; [vm_compute; reflexivity|]. split; cbn; [intros d [=]|]. constructor; [|constructor].
  intros g [= <-]. unfold gd_wf, u64o; cbn. repeat split; intros n Hn; try discriminate; injection Hn as <-; reflexivity.
Qed.

(** * C12: field order, unknown fields and repeated fields *)

Section AutoParse.
  Context {V : Type} (table : Z -> option (tlv -> res V)).
  Hypothesis nokey : forall ty p t, table ty = Some p -> tlv_ok t -> p t <> Err KeyError.
  Definition eqv (a b : list (Z * V)) := forall ty, lookup ty a = lookup ty b.

  Lemma auto_step_ok vs t vs' : tlv_ok t -> auto_step table true vs t = Ok vs' ->
    table (t_type t) = None /\ vs' = vs \/
    exists p v, table (t_type t) = Some p /\ lookup (t_type t) vs = None /\ p t = Ok v /\ vs' = (t_type t, v) :: vs.
  Proof.
    intros Ho H. unfold auto_step in H. destruct (table (t_type t)) as [p|] eqn:Et; [|left; split; [reflexivity|congruence]].
    right. destruct (lookup _ vs) eqn:El; [discriminate|]. destruct (p t) as [v|e] eqn:Ep.
    - apply Ok_inj in H. subst. exists p, v. auto.
    - destruct e; try discriminate. exfalso. eapply nokey; eassumption.
  Qed.
  Lemma auto_step_known vs t p v : table (t_type t) = Some p -> lookup (t_type t) vs = None -> p t = Ok v ->
    auto_step table true vs t = Ok ((t_type t, v) :: vs).
  Proof. intros A B C. unfold auto_step. rewrite A, B, C. reflexivity. Qed.
  Lemma auto_step_eqv vs ws t vs' : tlv_ok t -> eqv vs ws -> auto_step table true vs t = Ok vs' ->
    exists ws', auto_step table true ws t = Ok ws' /\ eqv vs' ws'.
  Proof.
    intros Ho He H. destruct (auto_step_ok _ _ _ Ho H) as [(A & ->)|(p & v & A & B & C & ->)].
    - exists ws. split; [|assumption]. unfold auto_step. rewrite A. reflexivity.
    - exists ((t_type t, v) :: ws). split; [eapply auto_step_known; eauto; rewrite <- He; assumption|].
      intros ty. cbn. rewrite He. reflexivity.
  Qed.
  Lemma auto_perm l l' : Permutation l l' -> forall vs ws r, Forall tlv_ok l -> eqv vs ws ->
    foldM (auto_step table true) vs l = Ok r ->
    exists r', foldM (auto_step table true) ws l' = Ok r' /\ eqv r r'.
  Proof.
    induction 1 as [|t l l' _ IH|a b l|l1 l2 l3 P1 IH1 _ IH2]; intros vs ws r Ho He H.
    - cbn in *. apply Ok_inj in H. subst. eauto.
    - cbn [foldM] in *. inv_bind H. inversion Ho; subst.
      destruct (auto_step_eqv _ _ _ _ H2 He E) as (ws' & E' & He'). rewrite E'. cbn [bind]. eauto.
    - cbn [foldM] in *. inv_bind H. inv_bind H. inversion Ho as [|? ? Hb Ho']; subst. inversion Ho' as [|? ? Ha Ho'']; subst.
      assert (exists w1 w2, auto_step table true ws a = Ok w1 /\ auto_step table true w1 b = Ok w2 /\ eqv a1 w2) as (w1 & w2 & E1 & E2 & E3).
      { destruct (auto_step_ok _ _ _ Hb E) as [(A & ->)|(p & v & A & B & C & ->)].
        - destruct (auto_step_eqv _ _ _ _ Ha He E0) as (w1 & X & Y). exists w1, w1. split; [assumption|]. split; [|assumption].
          unfold auto_step. rewrite A. reflexivity.
        - destruct (auto_step_ok _ _ _ Ha E0) as [(A' & ->)|(p' & v' & A' & B' & C' & ->)].
          + exists ws, ((t_type b, v) :: ws). split; [unfold auto_step; rewrite A'; reflexivity|].
            split; [eapply auto_step_known; eauto; rewrite <- He; assumption|]. intros ty; cbn; rewrite He; reflexivity.
          + cbn [lookup] in B'. destruct (Z.eqb_spec (t_type b) (t_type a)) as [|Hne]; [discriminate|].
            exists ((t_type a, v') :: ws), ((t_type b, v) :: (t_type a, v') :: ws).
            split; [eapply auto_step_known; eauto; rewrite <- He; assumption|].
            split; [eapply auto_step_known; eauto; cbn [lookup]; destruct (Z.eqb_spec (t_type a) (t_type b)); [congruence|rewrite <- He; assumption]|].
            intros ty. cbn. rewrite He. destruct (Z.eqb_spec (t_type a) ty), (Z.eqb_spec (t_type b) ty); congruence. }
      rewrite E1. cbn [bind]. rewrite E2. cbn [bind].
      clear - H E3 Ho'' nokey. revert a1 w2 H E3. induction l as [|t l IH]; intros vs ws H He.
      + cbn in *. apply Ok_inj in H. subst. eauto.
      + cbn [foldM] in *. inv_bind H. inversion Ho''; subst.
        destruct (auto_step_eqv _ _ _ _ H2 He E) as (ws' & E' & He'). rewrite E'. cbn [bind]. eauto.
    - destruct (IH1 vs vs r Ho (fun _ => eq_refl) H) as (r1 & H1 & X1).
      destruct (IH2 vs ws r1 (Permutation_Forall P1 Ho) He H1) as (r2 & H2 & X2). exists r2.
      split; [assumption|]. intros ty. rewrite X1. apply X2.
  Qed.
  Lemma auto_keeps l : forall vs r ty v, foldM (auto_step table true) vs l = Ok r -> Forall tlv_ok l ->
    lookup ty vs = Some v -> lookup ty r = Some v.
  Proof.
    induction l as [|t l IH]; intros vs r ty v H Ho Hl; cbn [foldM] in H; [apply Ok_inj in H; subst; assumption|].
    inv_bind H. inversion Ho; subst. eapply IH; [eassumption|assumption|].
    destruct (auto_step_ok _ _ _ H2 E) as [(_ & ->)|(p & w & A & B & C & ->)]; [assumption|].
    cbn [lookup]. destruct (Z.eqb_spec (t_type t) ty); [congruence|assumption].
  Qed.
  Lemma auto_has l : forall vs r t, foldM (auto_step table true) vs l = Ok r -> Forall tlv_ok l ->
    In t l -> table (t_type t) <> None -> lookup (t_type t) r <> None.
  Proof.
    induction l as [|a l IH]; intros vs r t H Ho Hin Ht; [destruct Hin|]. cbn [foldM] in H. inv_bind H.
    inversion Ho; subst. destruct Hin as [->|Hin]; [|eapply IH; eassumption].
    destruct (auto_step_ok _ _ _ H2 E) as [(A & _)|(p & w & A & B & C & ->)]; [congruence|].
    erewrite auto_keeps; [discriminate|eassumption|assumption|]. cbn [lookup]. rewrite Z.eqb_refl. reflexivity.
  Qed.
  (* a recognised type that occurs already *)
  Lemma auto_repeat l1 l2 u r : Forall tlv_ok l1 -> foldM (auto_step table true) [] l1 = Ok r ->
    table (t_type u) <> None -> (exists t, In t l1 /\ t_type t = t_type u) ->
    foldM (auto_step table true) [] (l1 ++ u :: l2) = Err ParseError.
  Proof.
    intros Ho H Hu (t & Hin & Et). rewrite foldM_app, H. cbn [bind foldM].
    assert (Hl : lookup (t_type u) r <> None) by (rewrite <- Et in *; eapply auto_has; eassumption).
    unfold auto_step at 1. destruct (table (t_type u)); [|congruence]. destruct (lookup _ r); [reflexivity|congruence].
  Qed.
  Lemma auto_unknown l1 l2 u vs : table (t_type u) = None ->
    foldM (auto_step table true) vs (l1 ++ u :: l2) = foldM (auto_step table true) vs (l1 ++ l2).
  Proof.
    intros H. rewrite !foldM_app. destruct (foldM _ vs l1); [|reflexivity]. cbn [bind foldM].
    unfold auto_step at 1. rewrite H. reflexivity.
  Qed.
End AutoParse.

Definition as_tlvs (l : list (Z * list Z)) := map (fun p => mkTlv (fst p) (snd p)) l.
Definition frameables (l : list (Z * list Z)) := forall p, In p l -> frameable (fst p) (snd p).
Lemma as_tlvs_ok l : frameables l -> Forall tlv_ok (as_tlvs l).
Proof. apply frames_ok. Qed.
Lemma frameables_app a b : frameables (a ++ b) <-> frameables a /\ frameables b.
Proof. unfold frameables. split; [intros H; split; intros; apply H, in_or_app; auto|intros [A B] p Hp; apply in_app_or in Hp as []; auto]. Qed.
Lemma auto_frames {V} (table : Z -> option (tlv -> res V)) l : frameables l ->
  auto_value_parse table true (frames l) = foldM (auto_step table true) [] (as_tlvs l).
Proof. intros H. unfold auto_value_parse. rewrite frames_wires. apply tlv_foreach_wires, as_tlvs_ok, H. Qed.

(* a decoder that is a function of the parsed field table *)
Section Via.
  Context {V A : Type} (table : Z -> option (tlv -> res V)) (dec : list Z -> res A) (k : list (Z * V) -> res A).
  Hypothesis nokey : forall ty p t, table ty = Some p -> tlv_ok t -> p t <> Err KeyError.
  Hypothesis via : forall b, dec b = bind (auto_value_parse table true b) k.
  Hypothesis keqv : forall a b, eqv a b -> k a = k b.
  Lemma via_perm l l' a : frameables l -> Permutation l l' -> dec (frames l) = Ok a -> dec (frames l') = Ok a.
  Proof.
    intros Hf P H. assert (Hf' : frameables l') by (intros p Hp; apply Hf; eapply Permutation_in; [apply Permutation_sym; exact P|exact Hp]).
    rewrite via, auto_frames in * by assumption. inv_bind H.
    destruct (auto_perm table nokey (as_tlvs l) (as_tlvs l') (Permutation_map _ P) [] [] a0 (as_tlvs_ok _ Hf) (fun _ => eq_refl) E) as (r & Er & He).
    rewrite Er. cbn [bind]. rewrite <- (keqv _ _ He). assumption.
  Qed.
  Lemma via_unknown l1 l2 u : frameables (l1 ++ u :: l2) -> table (fst u) = None ->
    dec (frames (l1 ++ u :: l2)) = dec (frames (l1 ++ l2)).
  Proof.
    intros Hf Hu. assert (Hf' : frameables (l1 ++ l2)).
    { apply frameables_app in Hf as [A1 A2]. apply frameables_app. split; [assumption|]. intros p Hp. apply A2. right; assumption. }
    rewrite !via, !auto_frames by assumption. unfold as_tlvs. rewrite !map_app. cbn [map]. rewrite auto_unknown by assumption. reflexivity.
  Qed.
  Lemma via_repeat l1 l2 u a : frameables (l1 ++ u :: l2) -> dec (frames (l1 ++ l2)) = Ok a ->
    table (fst u) <> None -> In (fst u) (map fst l1) -> dec (frames (l1 ++ u :: l2)) = Err ParseError.
  Proof.
    intros Hf H Hu Hin. assert (Hf' : frameables (l1 ++ l2)).
    { apply frameables_app in Hf as [A1 A2]. apply frameables_app. split; [assumption|]. intros p Hp. apply A2. right; assumption. }
    rewrite via, auto_frames in * by assumption. inv_bind H. unfold as_tlvs in *. rewrite map_app in *. cbn [map].
    rewrite foldM_app in E. inv_bind E.
    rewrite (auto_repeat table nokey) with (r := a1); [reflexivity| |exact E0|exact Hu|].
    - apply as_tlvs_ok. apply frameables_app in Hf'. apply Hf'.
    - apply in_map_iff in Hin as (q & Eq & Hq). exists (mkTlv (fst q) (snd q)). split; [|exact Eq].
      apply in_map_iff. exists q. auto.
  Qed.
End Via.

Definition gd_body (b : list Z) := gd_parse (mkTlv 0x000B b).
Definition hg_body (b : list Z) := hg_parse (mkTlv 0x0001 b).
Lemma gd_via b : gd_body b = bind (auto_value_parse gd_table true b) (fun vs => _ <- gd_tlv (gd_of vs) ;; Ok (gd_of vs)).
Proof. reflexivity. Qed.
Lemma hg_via b : hg_body b = bind (auto_value_parse hg_table true b) (fun vs => _ <- hg_tlv (hg_of vs) ;; Ok (hg_of vs)).
Proof. reflexivity. Qed.
Lemma errs_not {A} (m : res A) E e : errs m E -> ~ In e E -> m <> Err e.
Proof. intros H Hn ->. apply Hn. exact (H e eq_refl). Qed.
Ltac nokey_tac tab :=
  intros ty p t Hp Ho; unfold tab in Hp;
  repeat match type of Hp with (if ?c then _ else _) = _ => destruct c; [injection Hp as <-|] end; try discriminate.
Lemma gd_nokey : forall ty p t, gd_table ty = Some p -> tlv_ok t -> p t <> Err KeyError.
Proof.
  nokey_tac gd_table; eapply errs_not with (E := flic_exns); try (apply rmap_errs);
  try (first [apply int_parse_errs; cbn; tauto|errs_up ltac:(apply htt_parse_errs; assumption)]); cbn; intuition discriminate.
Qed.
Lemma hg_nokey : forall ty p t, hg_table ty = Some p -> tlv_ok t -> p t <> Err KeyError.
Proof.
  nokey_tac hg_table; eapply errs_not with (E := flic_exns); try (apply rmap_errs);
  try (first [errs_up ltac:(apply gd_parse_errs; assumption)|errs_up ltac:(apply ptrs_parse_errs; assumption)]); cbn; intuition discriminate.
Qed.
Lemma aead_nokey : forall ty p t, aead_table ty = Some p -> tlv_ok t -> p t <> Err KeyError.
Proof.
  nokey_tac aead_table; eapply errs_not with (E := flic_exns); try (apply rmap_errs);
  try (first [apply int_parse_errs; cbn; tauto|apply octet_parse_errs; cbn; tauto|apply kdf_parse_errs; assumption]); cbn; intuition discriminate.
Qed.
Lemma gd_of_eqv a b : eqv a b -> gd_of a = gd_of b.
Proof. intros H. unfold gd_of. rewrite !H. reflexivity. Qed.
Lemma hg_of_eqv a b : eqv a b -> hg_of a = hg_of b.
Proof. intros H. unfold hg_of. rewrite !H. reflexivity. Qed.
Lemma gd_table_none ty : ~ In ty [0;1;2;3;4;5] -> gd_table ty = None.
Proof. intros H. unfold gd_table. repeat match goal with |- context [ty =? ?k] => destruct (Z.eqb_spec ty k); [exfalso; apply H; subst; cbn; auto 10|] end. reflexivity. Qed.
Lemma gd_table_some ty : In ty [0;1;2;3;4;5] -> gd_table ty <> None.
Proof. cbn. intros H. repeat (destruct H as [<-|H]; [discriminate|]). destruct H. Qed.
Lemma hg_table_none ty : ~ In ty [11;7] -> hg_table ty = None.
Proof. intros H. unfold hg_table. repeat match goal with |- context [ty =? ?k] => destruct (Z.eqb_spec ty k); [exfalso; apply H; subst; cbn; auto 10|] end. reflexivity. Qed.
Lemma hg_table_some ty : In ty [11;7] -> hg_table ty <> None.
Proof. cbn. intros H. repeat (destruct H as [<-|H]; [discriminate|]). destruct H. Qed.
Lemma aead_table_none ty : ~ In ty [0;1;2;5] -> aead_table ty = None.
Proof. intros H. unfold aead_table. repeat match goal with |- context [ty =? ?k] => destruct (Z.eqb_spec ty k); [exfalso; apply H; subst; cbn; auto 10|] end. reflexivity. Qed.
Lemma aead_table_some ty : In ty [0;1;2;5] -> aead_table ty <> None.
Proof. cbn. intros H. repeat (destruct H as [<-|H]; [discriminate|]). destruct H. Qed.
Definition aead_k (vs : list (Z * av)) : res aead :=
  match av_int (lookup T_KEYNUM vs), av_oct (lookup T_NONCE vs) with
  | None, _ => Err TypeError
  | _, None => Err ValueError
  | Some k, Some n =>
    let a := mkAead k n (av_int (lookup T_AEADMode vs)) (av_kdf (lookup T_KDF_DATA vs)) in
    _ <- aead_wire a ;; Ok a
  end.
Lemma aead_via b : aead_parse b = bind (auto_value_parse aead_table true b) aead_k.
Proof. reflexivity. Qed.
Lemma aead_k_eqv a b : eqv a b -> aead_k a = aead_k b.
Proof. intros H. unfold aead_k. rewrite !H. reflexivity. Qed.

(* GroupData: field types 0..5 *)
Theorem C12_group_data_unknown : forall l1 l2 u, frameables (l1 ++ u :: l2) -> ~ In (fst u) [0;1;2;3;4;5] ->
  gd_parse (mkTlv 0x000B (frames (l1 ++ u :: l2))) = gd_parse (mkTlv 0x000B (frames (l1 ++ l2))).
Proof. intros. apply (via_unknown gd_table gd_body _ gd_via); [assumption|apply gd_table_none; assumption]. Qed.
Theorem C12_group_data_order : forall l l' g, frameables l -> Permutation l l' ->
  gd_parse (mkTlv 0x000B (frames l)) = Ok g -> gd_parse (mkTlv 0x000B (frames l')) = Ok g.
Proof.
  intros l l' g. apply (via_perm gd_table gd_body _ gd_nokey gd_via).
  intros a b H. cbn beta. rewrite (gd_of_eqv _ _ H). reflexivity.
Qed.
Theorem C12_group_data_repeat : forall l1 l2 u g, frameables (l1 ++ u :: l2) -> In (fst u) [0;1;2;3;4;5] ->
  In (fst u) (map fst l1) -> gd_parse (mkTlv 0x000B (frames (l1 ++ l2))) = Ok g ->
  gd_parse (mkTlv 0x000B (frames (l1 ++ u :: l2))) = Err ParseError.
Proof. intros l1 l2 u g Hf Hu Hin H. eapply (via_repeat gd_table gd_body _ gd_nokey gd_via); eauto using gd_table_some. Qed.
(* HashGroup: field types 7 and 11 *)
Theorem C12_hash_group_unknown : forall l1 l2 u, frameables (l1 ++ u :: l2) -> ~ In (fst u) [11;7] ->
  hg_parse (mkTlv 0x0001 (frames (l1 ++ u :: l2))) = hg_parse (mkTlv 0x0001 (frames (l1 ++ l2))).
Proof. intros. apply (via_unknown hg_table hg_body _ hg_via); [assumption|apply hg_table_none; assumption]. Qed.
Theorem C12_hash_group_order : forall l l' g, frameables l -> Permutation l l' ->
  hg_parse (mkTlv 0x0001 (frames l)) = Ok g -> hg_parse (mkTlv 0x0001 (frames l')) = Ok g.
Proof.
  intros l l' g. apply (via_perm hg_table hg_body _ hg_nokey hg_via).
  intros a b H. cbn beta. rewrite (hg_of_eqv _ _ H). reflexivity.
Qed.
Theorem C12_hash_group_repeat : forall l1 l2 u g, frameables (l1 ++ u :: l2) -> In (fst u) [11;7] ->
  In (fst u) (map fst l1) -> hg_parse (mkTlv 0x0001 (frames (l1 ++ l2))) = Ok g ->
  hg_parse (mkTlv 0x0001 (frames (l1 ++ u :: l2))) = Err ParseError.
Proof. intros l1 l2 u g Hf Hu Hin H. eapply (via_repeat hg_table hg_body _ hg_nokey hg_via); eauto using hg_table_some. Qed.
(* AEAD context: field types 0, 1, 2, 5 *)
Theorem C12_aead_unknown : forall l1 l2 u, frameables (l1 ++ u :: l2) -> ~ In (fst u) [0;1;2;5] ->
  aead_parse (frames (l1 ++ u :: l2)) = aead_parse (frames (l1 ++ l2)).
Proof. intros. apply (via_unknown aead_table aead_parse _ aead_via); [assumption|apply aead_table_none; assumption]. Qed.
Theorem C12_aead_order : forall l l' g, frameables l -> Permutation l l' ->
  aead_parse (frames l) = Ok g -> aead_parse (frames l') = Ok g.
Proof. intros l l' g. apply (via_perm aead_table aead_parse _ aead_nokey aead_via). apply aead_k_eqv. Qed.
Theorem C12_aead_repeat : forall l1 l2 u g, frameables (l1 ++ u :: l2) -> In (fst u) [0;1;2;5] ->
  In (fst u) (map fst l1) -> aead_parse (frames (l1 ++ l2)) = Ok g ->
  aead_parse (frames (l1 ++ u :: l2)) = Err ParseError.
Proof. intros l1 l2 u g Hf Hu Hin H. eapply (via_repeat aead_table aead_parse _ aead_nokey aead_via); eauto using aead_table_some. Qed.
Definition ex_fields : list (Z * list Z) := [(5, [7]); (0, [1;0]); (4, [3])].
Ltac frameables_tac := intros p Hp; cbn in Hp; repeat (destruct Hp as [<-|Hp]; [split; [cbn; lia|split; [reflexivity|intros b Hb; cbn in Hb; intuition lia]]|]); destruct Hp.
Example C12_ex :
  frameables (ex_fields ++ (77, [1;2]) :: []) /\
  gd_parse (mkTlv 0x000B (frames ex_fields)) = Ok (mkGD None None (Some 256) None (Some 7) (Some 3)) /\
  gd_parse (mkTlv 0x000B (frames (rev ex_fields))) = Ok (mkGD None None (Some 256) None (Some 7) (Some 3)) /\
  gd_parse (mkTlv 0x000B (frames (ex_fields ++ [(0, [1;0])]))) = Err ParseError /\
  frameables [(2, [1]); (1, [5]); (0, [9])] /\
  aead_parse (frames [(2, [1]); (1, [5]); (0, [9])]) = Ok (mkAead 9 [5] (Some 1) None).
Proof.
  split; [frameables_tac|]. do 3 (split; [vm_compute; reflexivity|]). split; [frameables_tac|]. vm_compute; reflexivity.
Qed.

(** * C53: equality of TLV objects *)

Theorem C53_tlv_eq_iff : forall a b, tlv_eq a b = true <-> t_val a = t_val b.
Proof.
  intros a b. unfold tlv_eq, tlv_len, tlv_length. rewrite andb_true_iff, beqb_spec. split; [tauto|].
  intros ->. split; [lia|reflexivity].
Qed.
(* for TLVs of one type equality is equality of the wire images *)
Theorem C53_same_type : forall a b, frameable (t_type a) (t_val a) -> frameable (t_type b) (t_val b) ->
  t_type a = t_type b -> (tlv_eq a b = true <-> tlv_wire a = tlv_wire b).
Proof.
  intros a b Ha Hb E. rewrite C53_tlv_eq_iff. split.
  - intros Ev. destruct a, b; cbn in *; congruence.
  - intros Ew. assert (wires [a] = wires [b]) as X by (unfold wires; cbn; rewrite !app_nil_r; assumption).
    apply wires_inj in X; [congruence|constructor; [apply frameable_tlv; assumption|constructor]..].
Qed.
(* the type is ignored: hash values of different algorithms compare equal *)
Theorem C53_refuted : forall alg1 alg2 d t1 t2, alg1 <> alg2 ->
  hashv_tlv (mkHash alg1 d) = Ok t1 -> hashv_tlv (mkHash alg2 d) = Ok t2 ->
  tlv_eq t1 t2 = true /\ tlv_wire t1 <> tlv_wire t2.
Proof.
  intros alg1 alg2 d t1 t2 Hne H1 H2. unfold hashv_tlv in *. cbn [h_alg h_val] in *. mon.
  apply tlv_make_tlv_ok in H1 as (O1 & T1 & V1), H2 as (O2 & T2 & V2). split; [apply C53_tlv_eq_iff; congruence|].
  intros Ew. assert (wires [t1] = wires [t2]) as X by (unfold wires; cbn; rewrite !app_nil_r; assumption).
  apply wires_inj in X; [congruence|constructor; [assumption|constructor]..].
Qed.
Example C53_ex : exists t1 t2, hashv_tlv (mkHash 1 [7]) = Ok t1 /\ hashv_tlv (mkHash 2 [7]) = Ok t2.
Proof. do 2 eexists. split; [vm_compute; reflexivity|vm_compute; reflexivity]. Qed.
Print Assumptions C13_pointers_roundtrip.
Print Assumptions C13_torn_refused.
Print Assumptions C13_torn_exn.
Print Assumptions C14_group_data_exists.
Print Assumptions C14_group_data_roundtrip.
Print Assumptions C14_hash_group_exists.
Print Assumptions C14_hash_group_roundtrip.
Print Assumptions C15_node_data_roundtrip.
Print Assumptions C15_node_roundtrip.
Print Assumptions C15_node_exists.
Print Assumptions C16_manifest_roundtrip.
Print Assumptions C16_manifest_packet.
Print Assumptions C17_padding_exact.
Print Assumptions C17_padding_exists.
Print Assumptions C17_padding_invisible.
Print Assumptions C17_padding_kept_refuted.
Print Assumptions C18_iteration_order.
Print Assumptions C18_missing_nc_id.
Print Assumptions C18_pointers_in_order.
Print Assumptions C10_manifest_decoder_total.
Print Assumptions C10_node_decoder_total.
Print Assumptions C10_node_data_decoder_total.
Print Assumptions C10_hash_group_decoder_total.
Print Assumptions C11_group_data_normal_form.
Print Assumptions C11_pointers_normal_form.
Print Assumptions C11_hash_group_normal_form.
Print Assumptions C11_node_data_normal_form.
Print Assumptions C11_node_normal_form.
Print Assumptions C11_manifest_normal_form.
Print Assumptions C11_normal_form_refuted.
Print Assumptions C12_group_data_unknown.
Print Assumptions C12_group_data_order.
Print Assumptions C12_group_data_repeat.
Print Assumptions C12_hash_group_unknown.
Print Assumptions C12_hash_group_order.
Print Assumptions C12_hash_group_repeat.
Print Assumptions C12_aead_unknown.
Print Assumptions C12_aead_order.
Print Assumptions C12_aead_repeat.
Print Assumptions C53_tlv_eq_iff.
Print Assumptions C53_same_type.
Print Assumptions C53_refuted.
