(* C82: what == says about the parts of a manifest. *)
From Coq Require Import ZArith List Bool Lia.
From Verif Require Import Py Tlv Spec WireSpec TlvProofs Core Flic Eq NodeEq CoreProofs FlicProofs PropsCore PropsFlic PropsStore PropsEq.
Import ListNotations.
Open Scope Z_scope.

(** * Specification *)

(* both absent, or both present and related *)
Definition both {A} (R : A -> A -> Prop) (a b : option A) : Prop :=
  match a, b with
  | None, None => True
  | Some x, Some y => R x y
  | _, _ => False
  end.
(* the attributes of node data that are compared as objects: the number, and
   the links with the Python types of their names *)
Definition same_data (d d' : ndata) : Prop :=
  nd_size d = nd_size d' /\ nd_locators d = nd_locators d'.
(* the comparison of node data gets to locators that only one of them has *)
Definition reaches_locators (d d' : ndata) : Prop :=
  nd_size d = nd_size d' /\ option_map h_val (nd_digest d) = option_map h_val (nd_digest d') /\
  one_sided (nd_locators d) (nd_locators d').
(* a node as parsing makes it: no padding, no arrays in the locators *)
Definition as_parsed (n : node) (t : tlv) : Prop :=
  node_tlv (mkNode (n_data n) (n_groups n) None) = Ok t /\
  forall d ls l m c, n_data n = Some d -> nd_locators d = Some ls -> In l ls ->
    l_name l = Some m -> In c m -> c_kind c = KBytes.

(** * Lists of TLVs by type *)
Definition of_type (k : Z) (t : tlv) : bool := t_type t =? k.
Lemma of_type_all k l : Forall (fun t => t_type t = k) l -> filter (of_type k) l = l.
Proof.
  induction 1 as [|t l H _ IH]; [reflexivity|]. cbn [filter]. unfold of_type at 1. rewrite H, Z.eqb_refl, IH. reflexivity.
Qed.
Lemma of_type_none k j l : k <> j -> Forall (fun t => t_type t = j) l -> filter (of_type k) l = [].
Proof.
  intros N. induction 1 as [|t l H _ IH]; [reflexivity|]. cbn [filter]. unfold of_type at 1. rewrite H.
  replace (j =? k) with false by lia. exact IH.
Qed.
Lemma opt_types {A} (enc : A -> res tlv) k o l : (forall a t, enc a = Ok t -> t_type t = k) ->
  opt_tlvs enc o l -> Forall (fun t => t_type t = k) l.
Proof.
  intros H O. destruct o as [a|]; cbn [opt_tlvs] in O; [|subst; constructor]. destruct O as (t & E & ->).
  constructor; [apply (H _ _ E)|constructor].
Qed.
Lemma map_types {A} (enc : A -> res tlv) k xs l : (forall a t, enc a = Ok t -> t_type t = k) ->
  mapM enc xs = Ok l -> Forall (fun t => t_type t = k) l.
Proof.
  intros H. revert l. induction xs as [|x xs IH]; cbn [mapM]; intros l E; mon; subst; constructor; eauto.
Qed.
Lemma opt_inj {A} (enc : A -> res tlv) o o' l : (forall a b t, enc a = Ok t -> enc b = Ok t -> a = b) ->
  opt_tlvs enc o l -> opt_tlvs enc o' l -> o = o'.
Proof.
  intros H O O'. destruct o as [a|], o' as [b|]; cbn [opt_tlvs] in *.
  - destruct O as (t & E & ->), O' as (u & E' & [= <-]). f_equal. eapply H; eassumption.
  - destruct O as (t & E & ->). discriminate.
  - destruct O' as (t & E & ->). discriminate.
  - reflexivity.
Qed.
Lemma map_inj {A} (enc : A -> res tlv) xs : forall ys l, (forall a b t, enc a = Ok t -> enc b = Ok t -> a = b) ->
  mapM enc xs = Ok l -> mapM enc ys = Ok l -> xs = ys.
Proof.
  induction xs as [|x xs IH]; intros [|y ys] l H E E'; cbn [mapM] in *; mon; subst; try discriminate; [reflexivity|].
  match goal with X : _ :: _ = _ :: _ |- _ => injection X as -> -> end. f_equal; eauto.
Qed.
Lemma htt_inj ty a b t : htt_tlv ty a = Ok t -> htt_tlv ty b = Ok t -> a = b.
Proof. intros H H'. apply htt_roundtrip in H, H'. congruence. Qed.
Lemma vendor_inj a b t : vendor_tlv a = Ok t -> vendor_tlv b = Ok t -> a = b.
Proof. intros H H'. apply vendor_roundtrip in H, H'. congruence. Qed.
Lemma int_type ty a t : int_tlv ty a = Ok t -> t_type t = ty.
Proof. intros H. apply int_tlv_ok in H. tauto. Qed.
Lemma htt_type ty a t : htt_tlv ty a = Ok t -> t_type t = ty.
Proof. intros H. apply htt_tlv_ok in H. tauto. Qed.
Lemma locs_type a t : locs_tlv a = Ok t -> t_type t = T_LOCATORS.
Proof. intros H. apply locs_tlv_ok in H. tauto. Qed.
Lemma ncdef_type a t : ncdef_tlv a = Ok t -> t_type t = T_NCDEF.
Proof. intros H. apply ncdef_tlv_ok in H. tauto. Qed.
Lemma vendor_type a t : vendor_tlv a = Ok t -> t_type t = T_ORG.
Proof. intros H. apply vendor_tlv_ok in H. tauto. Qed.
Lemma nd_type a t : nd_tlv a = Ok t -> t_type t = T_NODE_DATA.
Proof. intros H. apply nd_tlv_ok in H. tauto. Qed.
Lemma hg_type a t : hg_tlv a = Ok t -> t_type t = T_HASH_GROUP.
Proof. intros H. apply hg_tlv_ok in H. tauto. Qed.
(* the part with type k of a list of parts with known types *)
Ltac part k X :=
  let Y := fresh "P" in
  pose proof (f_equal (filter (of_type k)) X) as Y; rewrite !filter_app in Y;
  repeat match type of Y with context [filter (of_type ?k') ?l] =>
    match goal with F : Forall (fun t => t_type t = ?j) l |- _ =>
      first [constr_eq k' j; rewrite (of_type_all _ _ F) in Y | rewrite (of_type_none k' j l ltac:(discriminate) F) in Y]
    end end;
  cbn [app] in Y; rewrite ?app_nil_r in Y.

(** * Comparisons *)
Lemma same_tlv_true a b t u : a = Ok t -> b = Ok u -> t_type t = t_type u -> (same_tlv a b = true <-> t = u).
Proof. intros -> -> H. cbn [same_tlv]. apply tlv_eq_true. assumption. Qed.
Lemma hash_checked a b : attr_checked hashv_eq a b = Ok true <-> option_map h_val a = option_map h_val b.
Proof.
  destruct a as [x|], b as [y|]; cbn; try (split; discriminate); [|tauto]. rewrite Ok_bool. unfold hashv_eq.
  rewrite C53_tlv_eq_iff. cbn [t_val]. split; congruence.
Qed.
Lemma zeqb_checked a b : attr_checked Z.eqb a b = Ok true <-> a = b.
Proof. apply checked_true. apply Z.eqb_eq. Qed.
Lemma items_true {A} (eq : A -> A -> res bool) a : forall b, length a = length b ->
  (items_eq eq a b = Ok true <-> Forall2 (fun x y => eq x y = Ok true) a b).
Proof.
  induction a as [|x a IH]; intros [|y b] L; cbn [items_eq]; try discriminate L; [split; auto|].
  injection L as L. rewrite and_then_true, (IH b L). split; [intros []; constructor; assumption|intros H; inversion H; auto].
Qed.
Lemma list_true {A} (eq : A -> A -> res bool) a b :
  list_eq eq a b = Ok true <-> Forall2 (fun x y => eq x y = Ok true) a b.
Proof.
  unfold list_eq. destruct (zlen a =? zlen b) eqn:E.
  - apply items_true. unfold zlen in E. lia.
  - split; [discriminate|]. intros H. exfalso. assert (L : length a = length b) by (clear E; induction H; cbn [length]; congruence). unfold zlen in E. lia.
Qed.
Lemma list_no_err {A} (eq : A -> A -> res bool) a b e :
  (forall x y, In x a -> In y b -> eq x y <> Err e) -> list_eq eq a b <> Err e.
Proof.
  unfold list_eq. destruct (zlen a =? zlen b); [|discriminate]. revert b.
  induction a as [|x a IH]; intros [|y b] H; cbn [items_eq]; try discriminate. rewrite and_then_err. intros [E|(_ & E)].
  - apply (H x y (or_introl eq_refl) (or_introl eq_refl) E).
  - apply (IH b); [|exact E]. intros p q Hp Hq. apply H; right; assumption.
Qed.
Lemma reaches_true {A} (eq : A -> A -> res bool) a b : attr_reaches eq a b = Ok true <-> both (fun x y => eq x y = Ok true) a b.
Proof. destruct a, b; cbn; split; try discriminate; tauto. Qed.
Lemma reaches_err {A} (eq : A -> A -> res bool) a b e : attr_reaches eq a b = Err e <->
  e = AttributeError /\ one_sided a b \/ exists x y, a = Some x /\ b = Some y /\ eq x y = Err e.
Proof.
  destruct a as [x|], b as [y|]; cbn [attr_reaches one_sided]; split.
  - intros E. right. eauto.
  - intros [(_ & [])|(p & q & [= <-] & [= <-] & E)]. exact E.
  - intros [= <-]. auto.
  - intros [(-> & _)|(p & q & _ & E & _)]; [reflexivity|discriminate].
  - intros [= <-]. auto.
  - intros [(-> & _)|(p & q & E & _)]; [reflexivity|discriminate].
  - discriminate.
  - intros [(_ & [])|(p & q & E & _)]. discriminate.
Qed.

(** * Group data and hash groups *)
(* Group data are equal exactly when they have the same fields, although
   digests are compared without their algorithms. *)
Theorem C82_group_data : forall a b t u, gd_tlv a = Ok t -> gd_tlv b = Ok u ->
  (gd_eq a b = Ok true <-> a = b) /\ forall e, gd_eq a b <> Err e.
Proof.
  intros a b t u Ha Hb. split.
  2:{ intros e. unfold gd_eq. rewrite !and_then_err, !checked_err, Ok_err. tauto. }
  pose proof (gd_tlv_ok _ _ Ha) as (_ & T1 & l1 & l2 & l3 & l4 & l5 & l6 & O1 & O2 & O3 & O4 & O5 & O6 & Hl & Vt).
  pose proof (gd_tlv_ok _ _ Hb) as (_ & T2 & k1 & k2 & k3 & k4 & k5 & k6 & Q1 & Q2 & Q3 & Q4 & Q5 & Q6 & Hk & Vu).
  unfold gd_eq. rewrite !and_then_true, !zeqb_checked, !hash_checked, Ok_bool.
  rewrite (same_tlv_true _ _ t u Ha Hb) by congruence. split.
  - intros (E1 & E2 & E3 & E4 & E5 & E6 & <-). rewrite Vt in Vu. apply wires_inj in Vu; [|assumption|assumption].
    pose proof (opt_types _ _ _ _ (int_type _) O1). pose proof (opt_types _ _ _ _ (htt_type _) O2). pose proof (opt_types _ _ _ _ (int_type _) O3).
    pose proof (opt_types _ _ _ _ (htt_type _) O4). pose proof (opt_types _ _ _ _ (int_type _) O5). pose proof (opt_types _ _ _ _ (int_type _) O6).
    pose proof (opt_types _ _ _ _ (int_type _) Q1). pose proof (opt_types _ _ _ _ (htt_type _) Q2). pose proof (opt_types _ _ _ _ (int_type _) Q3).
    pose proof (opt_types _ _ _ _ (htt_type _) Q4). pose proof (opt_types _ _ _ _ (int_type _) Q5). pose proof (opt_types _ _ _ _ (int_type _) Q6).
    part T_SUBTREE_DIGEST Vu. part T_LEAF_DIGEST Vu. subst k2 k4.
    pose proof (opt_inj _ _ _ _ (htt_inj _) O2 Q2) as F2. pose proof (opt_inj _ _ _ _ (htt_inj _) O4 Q4) as F4.
    destruct a as [a1 a2 a3 a4 a5 a6], b as [b1 b2 b3 b4 b5 b6]. cbn [gd_subtree_size gd_subtree_digest gd_leaf_size gd_leaf_digest gd_nc_id gd_start] in *. congruence.
  - intros <-. rewrite Ha in Hb. apply Ok_inj in Hb. repeat split. assumption.
Qed.
(* Hash groups are equal exactly when they send the same bytes, and with
   numbers below 2^64 exactly when they have the same parts. *)
Theorem C82_hash_group : forall a b t u, hg_tlv a = Ok t -> hg_tlv b = Ok u ->
  (hg_eq a b = true <-> t = u) /\ (hg_wf a -> hg_wf b -> (hg_eq a b = true <-> a = b)).
Proof.
  intros a b t u Ha Hb. assert (E : hg_eq a b = true <-> t = u).
  { apply (same_tlv_true _ _ t u Ha Hb). rewrite (hg_type _ _ Ha), (hg_type _ _ Hb). reflexivity. }
  split; [exact E|]. intros Wa Wb. rewrite E. split.
  - intros <-. apply hg_roundtrip in Ha, Hb; [|assumption..]. congruence.
  - intros <-. congruence.
Qed.

(** * Locators *)
Lemma loc_true a b t u : loc_tlv a = Ok t -> loc_tlv b = Ok u -> (loc_eq a b = Ok true <-> a = b).
Proof.
  intros Ha Hb. pose proof (loc_tlv_ok _ _ Ha) as (_ & T1 & Wa & _). pose proof (loc_tlv_ok _ _ Hb) as (_ & T2 & Wb & _).
  unfold loc_eq. rewrite and_then_true, Ok_bool, (same_tlv_true _ _ t u Ha Hb) by congruence.
  rewrite (link_eq_true (mkLO a 0) (mkLO b 0) _ _ Wa Wb). split; [intros ([= ->] & _); reflexivity|intros <-; split; congruence].
Qed.
Lemma loc_no_err a b t u e : loc_tlv a = Ok t -> loc_tlv b = Ok u -> loc_eq a b <> Err e.
Proof.
  intros Ha Hb. pose proof (loc_tlv_ok _ _ Ha) as (_ & _ & Wa & Na). pose proof (loc_tlv_ok _ _ Hb) as (_ & _ & Wb & Nb).
  unfold loc_eq. rewrite and_then_err, Ok_err. unfold link_eq. cbn [lo_link].
  rewrite !and_then_err, unchecked_err, !checked_err, Ok_err.
  intros [[(_ & H)|H]|H]; [|tauto|tauto]. destruct (l_name a), (l_name b); try congruence; exact H.
Qed.
Lemma mapM_in {A} (f : A -> res tlv) xs : forall l x, mapM f xs = Ok l -> In x xs -> exists t, f x = Ok t.
Proof.
  induction xs as [|y xs IH]; intros l x E I; [destruct I|]. cbn [mapM] in E. mon. destruct I as [<-|I]; eauto.
Qed.
Lemma Forall2_eq {A} (R : A -> A -> Prop) a : forall b, (forall x y, In x a -> In y b -> (R x y <-> x = y)) ->
  (Forall2 R a b <-> a = b).
Proof.
  induction a as [|x a IH]; intros [|y b] H.
  - split; [reflexivity|constructor].
  - split; [intros K; inversion K|discriminate].
  - split; [intros K; inversion K|discriminate].
  - assert (IH' : Forall2 R a b <-> a = b) by (apply IH; intros p q Hp Hq; apply H; right; assumption).
    assert (H' : R x y <-> x = y) by (apply H; left; reflexivity). split.
    + intros K. inversion K; subst. f_equal; tauto.
    + intros [= -> ->]. constructor; tauto.
Qed.
Lemma locs_true a b t u : locs_tlv a = Ok t -> locs_tlv b = Ok u -> (locs_eq a b = Ok true <-> a = b).
Proof.
  intros Ha Hb. pose proof (locs_tlv_ok _ _ Ha) as (_ & T1 & _ & l & La & _). pose proof (locs_tlv_ok _ _ Hb) as (_ & T2 & _ & k & Lb & _).
  unfold locs_eq. rewrite and_then_true, Ok_bool, (same_tlv_true _ _ t u Ha Hb), list_true by congruence.
  rewrite Forall2_eq.
  - split; [tauto|]. intros <-. split; congruence.
  - intros x y Hx Hy. destruct (mapM_in _ _ _ _ La Hx) as (p & Hp), (mapM_in _ _ _ _ Lb Hy) as (q & Hq).
    eapply loc_true; eassumption.
Qed.
Lemma locs_no_err a b t u e : locs_tlv a = Ok t -> locs_tlv b = Ok u -> locs_eq a b <> Err e.
Proof.
  intros Ha Hb. pose proof (locs_tlv_ok _ _ Ha) as (_ & T1 & _ & l & La & _). pose proof (locs_tlv_ok _ _ Hb) as (_ & T2 & _ & k & Lb & _).
  unfold locs_eq. rewrite and_then_err, Ok_err. intros [H|H]; [|tauto]. revert H. apply list_no_err.
  intros x y Hx Hy. destruct (mapM_in _ _ _ _ La Hx) as (p & Hp), (mapM_in _ _ _ _ Lb Hy) as (q & Hq).
  eapply loc_no_err; eassumption.
Qed.
Lemma opt_locs_true a b l k : opt_tlvs locs_tlv a l -> opt_tlvs locs_tlv b k -> (attr_reaches locs_eq a b = Ok true <-> a = b).
Proof.
  rewrite reaches_true. destruct a as [a|], b as [b|]; cbn [opt_tlvs both]; intros O Q; try (split; [tauto|discriminate]); [|tauto].
  destruct O as (t & O & _), Q as (u & Q & _). rewrite (locs_true _ _ _ _ O Q). split; congruence.
Qed.
Lemma opt_locs_err a b l k e : opt_tlvs locs_tlv a l -> opt_tlvs locs_tlv b k ->
  (attr_reaches locs_eq a b = Err e <-> e = AttributeError /\ one_sided a b).
Proof.
  intros O Q. rewrite reaches_err. split; [|tauto]. intros [H|(x & y & -> & -> & E)]; [assumption|exfalso].
  cbn [opt_tlvs] in *. destruct O as (t & O & _), Q as (u & Q & _). exact (locs_no_err _ _ _ _ _ O Q E).
Qed.

(** * Node data *)
Lemma vendors_refl l ts : mapM vendor_tlv l = Ok ts -> list_eq (fun x y => Ok (vendor_eq x y)) l l = Ok true.
Proof.
  intros E. apply list_true. apply Forall2_eq; [|reflexivity]. intros x y Hx Hy. rewrite Ok_bool.
  destruct (mapM_in _ _ _ _ E Hx) as (t & Hp), (mapM_in _ _ _ _ E Hy) as (u & Hq). unfold vendor_eq.
  rewrite !andb_true_iff, beqb_spec, Z.eqb_eq, (same_tlv_true _ _ t u Hp Hq) by (rewrite (vendor_type _ _ Hp), (vendor_type _ _ Hq); reflexivity).
  split; [intros ((H1 & H2) & _); destruct x, y; cbn in *; congruence|]. intros <-. repeat split. congruence.
Qed.
Lemma tlvs_equal {A} (enc : A -> res tlv) k xs : forall ys l, (forall a t, enc a = Ok t -> t_type t = k) ->
  mapM enc xs = Ok l -> mapM enc ys = Ok l -> list_eq (fun x y => Ok (same_tlv (enc x) (enc y))) xs ys = Ok true.
Proof.
  intros ys l H E E'. apply list_true. revert ys l E E'.
  induction xs as [|x xs IH]; intros [|y ys] l E E'; cbn [mapM] in *; mon; subst; try discriminate; [constructor|].
  match goal with X : _ :: _ = _ :: _ |- _ => injection X as -> -> end. constructor; [|eauto]. rewrite Ok_bool.
  match goal with P : enc x = Ok ?t, Q : enc y = Ok ?t |- _ => apply (same_tlv_true _ _ t t P Q eq_refl) end. reflexivity.
Qed.
(* Node data are equal exactly when they send the same bytes, have the same
   size and the same links. *)
Theorem C82_node_data : forall d d' t u, nd_tlv d = Ok t -> nd_tlv d' = Ok u ->
  (nd_eq d d' = Ok true <-> t = u /\ same_data d d') /\
  (forall e, nd_eq d d' = Err e <-> e = AttributeError /\ reaches_locators d d').
Proof.
  intros d d' t u Hd Hd'.
  pose proof (nd_tlv_ok _ _ Hd) as (_ & T1 & l1 & l2 & l3 & l4 & l5 & O1 & O2 & O3 & O4 & O5 & Hl & Vt).
  pose proof (nd_tlv_ok _ _ Hd') as (_ & T2 & k1 & k2 & k3 & k4 & k5 & Q1 & Q2 & Q3 & Q4 & Q5 & Hk & Vu).
  unfold nd_eq. split.
  - rewrite !and_then_true, zeqb_checked, hash_checked, (opt_locs_true _ _ _ _ O3 Q3), Ok_bool.
    rewrite (same_tlv_true _ _ t u Hd Hd') by congruence. unfold same_data. split; [tauto|].
    intros (<- & E1 & E3). rewrite Vt in Vu. apply wires_inj in Vu; [|assumption|assumption].
    pose proof (opt_types _ _ _ _ (int_type _) O1). pose proof (opt_types _ _ _ _ (htt_type _) O2). pose proof (opt_types _ _ _ _ locs_type O3).
    pose proof (map_types _ _ _ _ ncdef_type O4). pose proof (map_types _ _ _ _ vendor_type O5).
    pose proof (opt_types _ _ _ _ (int_type _) Q1). pose proof (opt_types _ _ _ _ (htt_type _) Q2). pose proof (opt_types _ _ _ _ locs_type Q3).
    pose proof (map_types _ _ _ _ ncdef_type Q4). pose proof (map_types _ _ _ _ vendor_type Q5).
    part T_SUBTREE_DIGEST Vu. part T_NCDEF Vu. part T_ORG Vu. subst k2 k4 k5.
    pose proof (opt_inj _ _ _ _ (htt_inj _) O2 Q2) as F2. pose proof (map_inj _ _ _ _ vendor_inj O5 Q5) as F5.
    split; [assumption|]. split; [congruence|]. split; [assumption|]. rewrite <- F5. split; [eapply vendors_refl; eassumption|].
    split; [|reflexivity]. exact (tlvs_equal _ _ _ _ _ ncdef_type O4 Q4).
  - intros e. rewrite !and_then_err, !checked_err, zeqb_checked, hash_checked, (opt_locs_err _ _ _ _ _ O3 Q3), Ok_err.
    unfold reaches_locators.
    assert (N1 : list_eq (fun x y => Ok (vendor_eq x y)) (nd_vendors d) (nd_vendors d') <> Err e) by (apply list_no_err; discriminate).
    assert (N2 : list_eq (fun x y => Ok (ncdef_eq x y)) (nd_ncdefs d) (nd_ncdefs d') <> Err e) by (apply list_no_err; discriminate).
    tauto.
Qed.

(** * Nodes *)
Lemma node_parts n t : node_tlv n = Ok t -> exists l1 l2 l3, opt_tlvs nd_tlv (n_data n) l1 /\ mapM hg_tlv (n_groups n) = Ok l2 /\
  Forall tlv_ok (l1 ++ l2 ++ l3) /\ t = mkTlv T_NODE (wires (l1 ++ l2 ++ l3)) /\ Forall (fun t => t_type t = T_PAD) l3.
Proof.
  intros H. apply node_tlv_ok in H as (_ & Ht & _ & Hv). apply node_value_ok in Hv as (l1 & l2 & l3 & O1 & M2 & Hall & Hw & Hl3 & _).
  exists l1, l2, l3. repeat (split; [assumption|]). split; [destruct t; cbn in *; congruence|].
  destruct Hl3 as [->|(p & u & -> & E)]; [constructor|]. apply pad_tlv_ok in E as (_ & X & _). constructor; [exact X|constructor].
Qed.
(* Nodes are equal exactly when they send the same bytes and both have node
   data or neither, with the same size and the same links. *)
Theorem C82_node : forall a b t u, node_tlv a = Ok t -> node_tlv b = Ok u ->
  (node_eq a b = Ok true <-> t = u /\ both same_data (n_data a) (n_data b)) /\
  (forall e, node_eq a b = Err e <-> e = AttributeError /\ (one_sided (n_data a) (n_data b) \/
     exists d d', n_data a = Some d /\ n_data b = Some d' /\ reaches_locators d d')).
Proof.
  intros a b t u Ha Hb.
  pose proof (node_parts _ _ Ha) as (l1 & l2 & l3 & O1 & O2 & Hl & Vt & P3).
  pose proof (node_parts _ _ Hb) as (k1 & k2 & k3 & Q1 & Q2 & Hk & Vu & R3).
  assert (T : t_type t = t_type u) by (subst; reflexivity). unfold node_eq. split.
  - rewrite !and_then_true, reaches_true, Ok_bool, (same_tlv_true _ _ t u Ha Hb T). split.
    + intros (D & _ & E). split; [assumption|]. destruct (n_data a) as [d|], (n_data b) as [d'|]; cbn [both opt_tlvs] in *; auto.
      destruct O1 as (x & O1 & _), Q1 as (y & Q1 & _). apply (C82_node_data d d' x y O1 Q1) in D. tauto.
    + intros (E & D). rewrite Vt, Vu in E. injection E as E. apply wires_inj in E; [|assumption|assumption].
      pose proof (opt_types _ _ _ _ nd_type O1). pose proof (map_types _ _ _ _ hg_type O2).
      pose proof (opt_types _ _ _ _ nd_type Q1). pose proof (map_types _ _ _ _ hg_type Q2).
      part T_HASH_GROUP E. part T_NODE_DATA E. subst k1 k2. split; [|split; [exact (tlvs_equal _ _ _ _ _ hg_type O2 Q2)|congruence]].
      destruct (n_data a) as [d|], (n_data b) as [d'|]; cbn [both opt_tlvs] in *; auto.
      destruct O1 as (x & O1 & X), Q1 as (y & Q1 & Y). apply (C82_node_data d d' x y O1 Q1). split; [congruence|assumption].
  - intros e. rewrite !and_then_err, reaches_err, Ok_err.
    assert (N : list_eq (fun x y => Ok (hg_eq x y)) (n_groups a) (n_groups b) <> Err e) by (apply list_no_err; discriminate).
    assert (K : forall d d', n_data a = Some d -> n_data b = Some d' -> (nd_eq d d' = Err e <-> e = AttributeError /\ reaches_locators d d')).
    { intros d d' Ed Ed'. rewrite Ed, Ed' in *. cbn [opt_tlvs] in *. destruct O1 as (x & O1 & _), Q1 as (y & Q1 & _).
      apply (C82_node_data d d' x y O1 Q1). }
    split.
    + intros [[H|(d & d' & E1 & E2 & H)]|H]; [tauto| |tauto]. apply (K d d' E1 E2) in H as (He & H). split; [exact He|]. right. eauto.
    + intros (He & [H|(d & d' & E1 & E2 & H)]); left; [left; auto|]. right. exists d, d'. split; [exact E1|]. split; [exact E2|].
      apply (K d d' E1 E2). auto.
Qed.
Lemma both_refl {A} (R : A -> A -> Prop) a : (forall x, R x x) -> both R a a.
Proof. intros H. destruct a; cbn; auto. Qed.
Theorem C82_equivalence : forall a b c t u v, node_tlv a = Ok t -> node_tlv b = Ok u -> node_tlv c = Ok v ->
  node_eq a a = Ok true /\ node_eq a b = node_eq b a /\
  (node_eq a b = Ok true -> node_eq b c = Ok true -> node_eq a c = Ok true).
Proof.
  intros a b c t u v Ha Hb Hc.
  destruct (C82_node a a t t Ha Ha) as (Raa & _). destruct (C82_node a b t u Ha Hb) as (Rab & Eab). destruct (C82_node b a u t Hb Ha) as (Rba & Eba).
  destruct (C82_node b c u v Hb Hc) as (Rbc & _). destruct (C82_node a c t v Ha Hc) as (Rac & _). split; [|split].
  - apply Raa. split; [reflexivity|]. apply both_refl. split; reflexivity.
  - assert (S : forall x y, both same_data x y -> both same_data y x) by (intros [x|] [y|]; cbn; auto; intros (? & ?); split; congruence).
    assert (O : forall A (x y : option A), one_sided x y -> one_sided y x) by (intros A [x|] [y|]; cbn; auto).
    assert (L : forall x y, reaches_locators x y -> reaches_locators y x) by (intros x y (? & ? & ?); repeat split; auto).
    assert (TT : node_eq a b = Ok true <-> node_eq b a = Ok true).
    { rewrite Rab, Rba. split; intros (-> & D); split; auto. }
    assert (EE : forall e, node_eq a b = Err e <-> node_eq b a = Err e).
    { intros e. rewrite Eab, Eba. split; intros (-> & [D|(d & d' & E1 & E2 & D)]); (split; [reflexivity|]);
        [left; auto|right; exists d', d; auto|left; auto|right; exists d', d; auto]. }
    destruct (node_eq a b) as [[|]|e], (node_eq b a) as [[|]|e'] eqn:F; try reflexivity;
      try (destruct TT as (TT & TT'); first [discriminate (TT eq_refl)|discriminate (TT' eq_refl)]);
      try (destruct (EE e) as (X & _); discriminate (X eq_refl)); try (destruct (EE e') as (_ & X); discriminate (X eq_refl)).
    destruct (EE e) as (X & _). specialize (X eq_refl). congruence.
  - rewrite Rab, Rbc, Rac. intros (-> & D) (-> & D'). split; [reflexivity|].
    destruct (n_data a), (n_data b), (n_data c); cbn in *; try tauto. destruct D, D'. split; congruence.
Qed.

(* A node and what its own bytes are parsed to: equal exactly when it has no
   padding and no array in a name of a locator; otherwise unequal, never an
   exception. *)
Lemma links_norm ls : (forall l m c, In l ls -> l_name l = Some m -> In c m -> c_kind c = KBytes) <-> locs_norm ls = ls.
Proof.
  induction ls as [|l ls IH]; cbn [locs_norm map]; [split; [reflexivity|intros _ l m c []]|]. fold (locs_norm ls). split.
  - intros H. f_equal; [|apply IH; intros; eapply H; [right|..]; eassumption].
    destruct l as [[n|] k d]; unfold link_norm; cbn [l_name l_keyid l_digest option_map]; [|reflexivity]. f_equal. f_equal.
    apply kinds_norm. intros c Hc. exact (H _ n c (or_introl eq_refl) eq_refl Hc).
  - intros E. injection E as E1 E2. intros l' m c [<-|Hl] Em Hc; [|apply (proj2 IH E2 l' m c Hl Em Hc)].
    destruct l as [n k d]. cbn [l_name] in Em. subst n. unfold link_norm in E1. cbn [l_name l_keyid l_digest option_map] in E1.
    injection E1 as E1. apply (proj2 (kinds_norm m) E1). assumption.
Qed.
Theorem C82_parsed : forall n t, node_wf n -> node_tlv n = Ok t ->
  exists n', node_parse t = Ok n' /\
    (as_parsed n t -> node_eq n n' = Ok true /\ node_eq n' n = Ok true) /\
    (~ as_parsed n t -> node_eq n n' = Ok false /\ node_eq n' n = Ok false) /\
    node_eq n' n' = Ok true.
Proof.
  intros n t W H. exists (node_norm n). split; [apply node_roundtrip; assumption|].
  destruct (unpad_tlv _ _ H) as (t' & Hu). pose proof Hu as Hn. rewrite <- node_norm_unpad in Hn.
  destruct (C82_equivalence _ _ _ _ _ _ H Hn Hn) as (_ & Sy & _). destruct (C82_equivalence _ _ _ _ _ _ Hn Hn Hn) as (Re & _).
  rewrite <- Sy.
  assert (K : node_eq n (node_norm n) = Ok true <-> as_parsed n t).
  { destruct (C82_node _ _ _ _ H Hn) as (R & _). rewrite R. unfold as_parsed. fold (unpad n). rewrite Hu. unfold node_norm. cbn [n_data].
    assert (D : both same_data (n_data n) (option_map nd_norm (n_data n)) <->
      forall d ls l m c, n_data n = Some d -> nd_locators d = Some ls -> In l ls -> l_name l = Some m -> In c m -> c_kind c = KBytes).
    { destruct (n_data n) as [d|]; cbn [both option_map]; [|split; [discriminate|auto]]. unfold same_data, nd_norm. cbn [nd_size nd_locators]. split.
      - intros (_ & E) d0 ls l m c [= <-] El. rewrite El in E. cbn [option_map] in E. injection E as E. apply (proj2 (links_norm ls) (eq_sym E)).
      - intros G. split; [reflexivity|]. destruct (nd_locators d) as [ls|] eqn:El; [|reflexivity]. cbn [option_map]. f_equal. symmetry.
        apply links_norm. intros l m c Hl Hm Hc. exact (G d ls l m c eq_refl El Hl Hm Hc). }
    rewrite D. split; [intros (-> & G); auto|intros (E & G); split; [congruence|assumption]]. }
  split; [|split; [|assumption]].
  - intros A. apply K in A. auto.
  - intros A. rewrite <- K in A. assert (node_eq n (node_norm n) = Ok false); [|auto].
    destruct (node_eq n (node_norm n)) as [[|]|e] eqn:E; [congruence|reflexivity|exfalso].
    destruct (C82_node _ _ _ _ H Hn) as (_ & X). apply X in E as (_ & [E|(d & d' & E1 & E2 & _ & _ & E)]); unfold node_norm in *; cbn [n_data] in *.
    + destruct (n_data n); exact E.
    + rewrite E1 in E2. cbn [option_map] in E2. injection E2 as <-. unfold nd_norm in E. cbn [nd_locators] in E. destruct (nd_locators d); exact E.
Qed.

(** * Schemas, definitions and security contexts *)
(* A prefix schema equals another exactly when it sends the same bytes; the
   other schemas exactly when they have the same fields, names and links with
   their Python types; schemas of different kinds are never equal. *)
Lemma schema_parts s t : schema_tlv s = Ok t ->
  match s with
  | SHash l f => f = None /\ exists ls, opt_tlvs locs_tlv l ls
  | SPrefix n l f => f = None
  | SSeg n x l f => f = None /\ (forall m, n = Some m -> exists tm, name_tlv m = Ok tm) /\ exists ls, opt_tlvs locs_tlv l ls
  end.
Proof.
  destruct s as [l f|n l f|n x l f]; cbn [schema_tlv]; intros H; mon; destruct f; try discriminate; auto.
  - wopt E0 ls. eauto.
  - wopt E2 ls. split; [reflexivity|]. split; [|eauto]. intros m ->. cbn [wire_opt] in E0. destruct (name_tlv m); [eauto|discriminate].
Qed.
Theorem C82_schema : forall a b t u, schema_tlv a = Ok t -> schema_tlv b = Ok u ->
  (schema_eq a b = Ok true <->
     match a, b with SPrefix _ _ _, SPrefix _ _ _ => t = u | _, _ => a = b end) /\
  (forall e, schema_eq a b = Err e <-> e = AttributeError /\
     match a, b with
     | SSeg n _ l _, SSeg n' _ l' _ => one_sided n n' \/ n = n' /\ one_sided l l'
     | SHash l _, SHash l' _ => one_sided l l'
     | _, _ => False
     end).
Proof.
  intros a b t u Ha Hb. pose proof (schema_parts _ _ Ha) as Pa. pose proof (schema_parts _ _ Hb) as Pb.
  pose proof (schema_tlv_ok _ _ Ha) as (_ & Ta). pose proof (schema_tlv_ok _ _ Hb) as (_ & Tb).
  destruct a as [l f|n l f|n x l f], b as [l' f'|n' l' f'|n' x' l' f'];
    try (split; [cbn; split; discriminate|intros e; cbn; split; [discriminate|tauto]]);
    cbn [schema_type] in Ta, Tb; assert (T : t_type t = t_type u) by congruence; cbn [schema_eq].
  - destruct Pa as (-> & ls & O), Pb as (-> & ls' & O'). split.
    + rewrite and_then_true, (opt_locs_true _ _ _ _ O O'), Ok_bool, (same_tlv_true _ _ t u Ha Hb T). split; [intros (-> & _); reflexivity|].
      intros [= <-]. split; congruence.
    + intros e. rewrite and_then_err, (opt_locs_err _ _ _ _ _ O O'), Ok_err. tauto.
  - split; [rewrite Ok_bool; apply (same_tlv_true _ _ t u Ha Hb T)|intros e; rewrite Ok_err; tauto].
  - destruct Pa as (-> & N & ls & O), Pb as (-> & N' & ls' & O').
    assert (NT : attr_unchecked name_eq n n' = Ok true <-> n = n').
    { apply unchecked_true. intros m m' E. destruct (N m E) as (tm & Tm). eapply C07_names_equal_iff. exact Tm. }
    split.
    + rewrite !and_then_true, NT, (opt_locs_true _ _ _ _ O O'), Ok_bool, (same_tlv_true _ _ t u Ha Hb T).
      rewrite (unchecked_true Z.eqb x x') by (intros; apply Z.eqb_eq). split; [intros (-> & -> & _ & ->); reflexivity|].
      intros [= <- <- <-]. repeat split; congruence.
    + intros e. rewrite !and_then_err, NT, unchecked_err, (opt_locs_true _ _ _ _ O O'), (opt_locs_err _ _ _ _ _ O O'), Ok_err, Ok_bool, unchecked_err.
      rewrite (same_tlv_true _ _ t u Ha Hb T). split; [|tauto].
      intros [(-> & H)|(-> & [(-> & H)|(-> & [[]|(<- & -> & H)])])]; [tauto|tauto|exfalso].
      (* the bytes have told the suffixes apart *)
      apply schema_roundtrip in Ha, Hb. rewrite Ha in Hb. apply Ok_inj in Hb. cbn [schema_norm] in Hb. injection Hb as <-. destruct x; exact H.
Qed.
(* Definitions of name constructors compare as their bytes; so do security
   contexts, of either kind. *)
Theorem C82_bytes : forall t u,
  (forall a b, ncdef_tlv a = Ok t -> ncdef_tlv b = Ok u -> (ncdef_eq a b = true <-> t = u)) /\
  (forall a b, vendor_tlv a = Ok t -> vendor_tlv b = Ok u -> (vendor_eq a b = true <-> a = b)) /\
  (forall a b, ctx_tlv a = Ok t -> ctx_tlv b = Ok u -> (ctx_eq a b = true <-> t = u)).
Proof.
  intros t u. split; [|split]; intros a b Ha Hb.
  - apply (same_tlv_true _ _ t u Ha Hb). rewrite (ncdef_type _ _ Ha), (ncdef_type _ _ Hb). reflexivity.
  - unfold vendor_eq. rewrite !andb_true_iff, beqb_spec, Z.eqb_eq.
    rewrite (same_tlv_true _ _ t u Ha Hb) by (rewrite (vendor_type _ _ Ha), (vendor_type _ _ Hb); reflexivity).
    split; [intros ((H1 & H2) & _); destruct a, b; cbn in *; congruence|]. intros <-. repeat split. congruence.
  - assert (Outer : forall c x, ctx_tlv c = Ok x -> t_type x = T_SECURITY_CTX /\ exists i, tlv_ok i /\ t_val x = tlv_wire i /\
      match c with CAead a => t_type i = T_AEAD_CTX /\ aead_wire a = Ok (t_val i) | CRsa _ _ => t_type i = T_RSAOAEP_CTX end).
    { intros c x H. destruct c; cbn [ctx_tlv] in H; mon;
        repeat match goal with X : tlv_make _ _ = Ok _ |- _ => apply tlv_make_tlv_ok in X as (? & ? & ?) end;
        (split; [assumption|]); eexists; (split; [|split; [eassumption|]]; [assumption|]); subst; auto. }
    assert (Inner : forall i j, tlv_ok i -> tlv_ok j -> tlv_wire i = tlv_wire j -> i = j).
    { intros i j Oi Oj E. rewrite <- !wires_one in E. apply wires_inj in E; [congruence|constructor; auto..]. }
    pose proof (Outer _ _ Ha) as (Ta & i & Oi & Vi & Ka). pose proof (Outer _ _ Hb) as (Tb & j & Oj & Vj & Kb).
    assert (E : t = u <-> i = j).
    { destruct t as [tt tv], u as [ut uv]. cbn [t_type t_val] in *. split; [intros [= <- <-]; apply Inner; congruence|intros <-; congruence]. }
    destruct a as [a|a w], b as [b|b w']; cbn [ctx_eq].
    + unfold aead_eq. destruct Ka as (Ti & Ka), Kb as (Tj & Kb). rewrite Ka, Kb, E. cbn [same_wire]. rewrite beqb_spec.
      destruct i as [it iv], j as [jt jv]. cbn [t_type t_val] in *. split; congruence.
    + split; [discriminate|]. rewrite E. intros <-. destruct Ka as (Ka & _). rewrite Ka in Kb. discriminate.
    + split; [discriminate|]. rewrite E. intros <-. destruct Kb as (Kb & _). rewrite Kb in Ka. discriminate.
    + apply (same_tlv_true _ _ t u Ha Hb). congruence.
Qed.

(** * Concrete cases *)
Definition eq_gd n := mkGD None None None None (Some n) None.
Definition eq_hg n := mkHG (Some (eq_gd n)) (Some [mkHash 1 [4]]).
(* "hash groups are equal exactly when their parts are" is false without a
   bound on the numbers: the group data differ, the bytes do not *)
Theorem C82_group_parts_refuted : exists a b t, hg_tlv a = Ok t /\ hg_tlv b = Ok t /\ hg_eq a b = true /\
  exists g g', hg_data a = Some g /\ hg_data b = Some g' /\ hg_ptrs a = hg_ptrs b /\ gd_eq g g' = Ok false.
Proof.
  exists (eq_hg (2 ^ 63)), (eq_hg (2 ^ 64 + 2 ^ 63)). eexists. do 3 (split; [vm_compute; reflexivity|]).
  exists (eq_gd (2 ^ 63)), (eq_gd (2 ^ 64 + 2 ^ 63)). do 3 (split; [reflexivity|]). vm_compute. reflexivity.
Qed.
(* "hashes that are equal send the same bytes" is false: the algorithm is not
   compared; the node data that hold them differ *)
Definition eq_digest alg := mkND None (Some (mkHash alg [1; 2])) None [] [].
Theorem C82_digest_refuted : exists h h' t u, htt_tlv T_SUBTREE_DIGEST h = Ok t /\ htt_tlv T_SUBTREE_DIGEST h' = Ok u /\
  hashv_eq h h' = true /\ tlv_wire t <> tlv_wire u /\
  nd_eq (mkND None (Some h) None [] []) (mkND None (Some h') None [] []) = Ok false.
Proof.
  exists (mkHash 1 [1; 2]), (mkHash 2 [1; 2]). do 2 eexists. do 3 (split; [vm_compute; reflexivity|]).
  split; [vm_compute; discriminate|vm_compute; reflexivity].
Qed.
(* "nodes can always be compared" is false: one without node data, one whose
   node data has no locators *)
Definition eq_node d := mkNode d [eq_hg 5] None.
Definition eq_loc k := mkLink (Some [mkComp 1 k [65]]) None None.
Theorem C82_comparable_refuted : exists a b c t u v, node_tlv a = Ok t /\ node_tlv b = Ok u /\ node_tlv c = Ok v /\
  node_eq a b = Err AttributeError /\ node_eq b c = Err AttributeError.
Proof.
  exists (eq_node None), (eq_node (Some (mkND (Some 1) None None [] []))), (eq_node (Some (mkND (Some 1) None (Some [eq_loc KBytes]) [] []))).
  do 3 eexists. do 3 (split; [vm_compute; reflexivity|]). split; vm_compute; reflexivity.
Qed.
(* "equal manifests have equal nodes" is false: a manifest equals what its
   bytes are parsed to although the nodes in them differ *)
Theorem C82_manifest_nodes_refuted : exists n w m n', man_wire (mkMan None (MNode n) None) = Ok w /\ man_deserialize w = Ok m /\
  m_node m = MNode n' /\ man_eq (mkMan None (MNode n) None) m = true /\ node_eq n n' = Ok false.
Proof.
  exists (eq_node (Some (mkND None None (Some [eq_loc KArray]) [] []))). do 3 eexists. do 4 (split; [vm_compute; reflexivity|]).
  vm_compute. reflexivity.
Qed.
Definition eq_gd2 := mkGD (Some 9) (Some (mkHash 1 [1])) (Some 7) (Some (mkHash 1 [2])) (Some 1) (Some 300).
Example C82_group_data_ex : (exists t, gd_tlv eq_gd2 = Ok t) /\ gd_eq eq_gd2 eq_gd2 = Ok true /\
  gd_eq eq_gd2 (mkGD (Some 9) (Some (mkHash 1 [1])) (Some 7) (Some (mkHash 2 [2])) (Some 1) (Some 300)) = Ok false.
Proof. split; [eexists; vm_compute; reflexivity|]. vm_compute. auto. Qed.
Example C82_hash_group_ex : hg_wf ex_hg /\ (exists t, hg_tlv ex_hg = Ok t) /\ hg_eq ex_hg ex_hg = true /\ hg_eq ex_hg (eq_hg 5) = false.
Proof.
  split; [exact (proj1 (Forall_forall _ _) (proj2 ex_node_wf) _ (or_introl eq_refl))|].
  split; [eexists; vm_compute; reflexivity|]. vm_compute. auto.
Qed.
Example C82_node_data_ex : (exists t, nd_tlv ex_nd = Ok t) /\ nd_eq ex_nd ex_nd = Ok true /\
  nd_eq ex_nd (mkND (Some 5) (Some (mkHash 1 [4])) None [] []) = Err AttributeError.
Proof. split; [eexists; vm_compute; reflexivity|]. vm_compute. auto. Qed.
Example C82_node_ex : node_wf ex_node /\ (exists t, node_tlv ex_node = Ok t) /\ node_eq ex_node ex_node = Ok true /\ node_eq ex_node (eq_node (Some ex_nd)) = Ok false.
Proof. split; [exact ex_node_wf|]. split; [eexists; vm_compute; reflexivity|]. vm_compute. auto. Qed.
(* equal with padding that has no room, unequal to its parse with padding *)
Example C82_padding_ex : exists t u, node_tlv (mkNode None [eq_hg 5] (Some 10)) = Ok t /\ as_parsed (mkNode None [eq_hg 5] (Some 10)) t /\
  node_tlv (mkNode None [eq_hg 5] (Some 100)) = Ok u /\ ~ as_parsed (mkNode None [eq_hg 5] (Some 100)) u /\
  node_eq (mkNode None [eq_hg 5] (Some 100)) (eq_node None) = Ok false.
Proof.
  do 2 eexists. split; [vm_compute; reflexivity|]. split; [split; [vm_compute; reflexivity|intros d ls l m c [=]]|].
  split; [vm_compute; reflexivity|]. split; [intros (H & _); vm_compute in H; discriminate H|vm_compute; reflexivity].
Qed.
Example C82_schema_ex : exists s s' t u, s = SSeg (Some [mkComp 1 KBytes [65]]) (Some 16) (Some [eq_loc KBytes]) None /\
  s' = SSeg (Some [mkComp 1 KBytes [65]]) (Some 16) None None /\ schema_tlv s = Ok t /\ schema_tlv s' = Ok u /\
  schema_eq s s = Ok true /\ schema_eq s s' = Err AttributeError /\
  schema_eq (SPrefix (Some [mkComp 1 KBytes [65]]) None None) (SPrefix (Some [mkComp 1 KArray [65]]) None None) = Ok true /\
  schema_eq (SSeg (Some [mkComp 1 KBytes [65]]) None None None) (SSeg (Some [mkComp 1 KArray [65]]) None None None) = Ok false.
Proof. do 4 eexists. do 2 (split; [reflexivity|]). do 2 (split; [vm_compute; reflexivity|]). vm_compute. auto. Qed.
Definition eq_ctx k := CAead (mkAead k [1; 2; 3] (Some 1) None).
Example C82_bytes_ex : (exists t u, ctx_tlv (eq_ctx 1) = Ok t /\ ctx_tlv (eq_ctx 2) = Ok u) /\ ctx_eq (eq_ctx 1) (eq_ctx 1) = true /\
  ctx_eq (eq_ctx 1) (eq_ctx 2) = false /\ ctx_eq (eq_ctx 1) (CRsa (ctx_aead (eq_ctx 1)) None) = false /\
  (exists t, vendor_tlv (mkVendor 70000 [1; 2]) = Ok t) /\ exists t, ncdef_tlv (mkNcDef (Some 2) (Some (SHash None None))) = Ok t.
Proof.
  split; [do 2 eexists; split; vm_compute; reflexivity|]. do 3 (split; [vm_compute; reflexivity|]).
  split; eexists; vm_compute; reflexivity.
Qed.

Print Assumptions C82_group_data.
Print Assumptions C82_hash_group.
Print Assumptions C82_node_data.
Print Assumptions C82_node.
Print Assumptions C82_equivalence.
Print Assumptions C82_parsed.
Print Assumptions C82_schema.
Print Assumptions C82_bytes.
Print Assumptions C82_group_parts_refuted.
Print Assumptions C82_digest_refuted.
Print Assumptions C82_comparable_refuted.
Print Assumptions C82_manifest_nodes_refuted.
