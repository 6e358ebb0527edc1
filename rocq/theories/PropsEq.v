(* C75: what == says about packets, links, pointer lists and manifests. *)
From Coq Require Import ZArith List Bool Lia QArith Qpower.
From Verif Require Import Py Float Tlv Spec WireSpec TlvProofs Core Flic Crypto Tree Eq FloatProofs CoreProofs FlicProofs PropsCore PropsFlic StoreProofs Store PropsStore PropsDir.
Import ListNotations.
Open Scope Z_scope.

(** * Specification *)

(* the number a float stands for *)
Definition fl_value (f : fl) : Q := (inject_Z (fm f) * Qpower (inject_Z 2) (fe f))%Q.
Definition same_time (a b : option fl) : Prop :=
  match a, b with
  | None, None => True
  | Some f, Some g => (fl_value f == fl_value g)%Q
  | _, _ => False
  end.
(* present on one side only *)
Definition one_sided {A} (a b : option A) : Prop :=
  match a, b with None, Some _ | Some _, None => True | _, _ => False end.
Definition same_fields (a b : content) : Prop :=
  co_name a = co_name b /\ co_ptype a = co_ptype b /\ co_payload a = co_payload b /\
  same_time (co_expiry a) (co_expiry b) /\ co_fcid a = co_fcid b.
(* Two packets are the same: same header, same fields of the content objects
   with their Python types, same validation payload, same bytes sent. *)
Definition same_objects (p q : packet) : Prop :=
  p_hdr p = p_hdr q /\ p_vpl p = p_vpl q /\ packet_wire p = packet_wire q /\
  exists a b, p_body p = BCO a /\ p_body q = BCO b /\ same_fields a b.

(** * Floats *)
Lemma two_nz : ~ (inject_Z 2 == 0)%Q.
Proof. intros H. discriminate H. Qed.
Lemma fl_value_frac f : (fl_value f * inject_Z (fl_den f) == inject_Z (fl_num f))%Q.
Proof.
  unfold fl_value, fl_num, fl_den. rewrite inject_Z_mult, !Zpower_Qpower by lia.
  rewrite <- Qmult_assoc, <- Qpower_plus by exact two_nz.
  replace (fe f + Z.max 0 (- fe f)) with (Z.max 0 (fe f)) by lia. reflexivity.
Qed.
Lemma fl_den_pos f : 0 < fl_den f.
Proof. apply pow2_pos. lia. Qed.
Lemma inject_pos_nz z : 0 < z -> ~ (inject_Z z == 0)%Q.
Proof. unfold Qeq; cbn. lia. Qed.
Lemma fl_eq_value f g : fl_eq f g = true <-> (fl_value f == fl_value g)%Q.
Proof.
  unfold fl_eq. rewrite Z.eqb_eq, <- inject_Z_injective.
  rewrite !inject_Z_mult, <- !fl_value_frac.
  pose proof (inject_pos_nz _ (fl_den_pos f)) as F. pose proof (inject_pos_nz _ (fl_den_pos g)) as G.
  set (a := inject_Z (fl_den f)) in *. set (b := inject_Z (fl_den g)) in *. split.
  - intros E. apply (Qmult_inj_r _ _ (a * b)).
    + intros Z. apply Qmult_integral in Z as [Z|Z]; auto.
    + rewrite Qmult_assoc, E. ring.
  - intros ->. ring.
Qed.

(** * The comparisons one by one *)
Lemma and_then_true a b : and_then a b = Ok true <-> a = Ok true /\ b = Ok true.
Proof.
  destruct a as [[|]|e]; cbn; split; try tauto; try (intros [? ?]; congruence); try discriminate; auto.
Qed.
Lemma and_then_err a b e : and_then a b = Err e <-> a = Err e \/ a = Ok true /\ b = Err e.
Proof.
  destruct a as [[|]|x]; cbn; split; try (intros [?|[? ?]]; congruence); try discriminate; auto.
Qed.
Lemma unchecked_err {A} (eq : A -> A -> bool) a b e :
  attr_unchecked eq a b = Err e <-> e = AttributeError /\ one_sided a b.
Proof.
  destruct a, b; cbn; split; try discriminate; try tauto; try (intros [= <-]; auto); intros [-> _]; reflexivity.
Qed.
Lemma checked_err {A} (eq : A -> A -> bool) a b e : attr_checked eq a b = Err e <-> False.
Proof. destruct a, b; cbn; split; try discriminate; tauto. Qed.
Lemma Ok_bool b : (Ok b = Ok true :> res bool) <-> b = true.
Proof. split; congruence. Qed.
Lemma Ok_err {A} (a : A) e : Ok a = Err e <-> False.
Proof. split; [discriminate|tauto]. Qed.
(* for a comparison that decides equality *)
Lemma unchecked_true {A} (eq : A -> A -> bool) a b : (forall x y, a = Some x -> (eq x y = true <-> x = y)) ->
  (attr_unchecked eq a b = Ok true <-> a = b).
Proof.
  intros H. destruct a as [x|], b as [y|]; cbn; try (split; [discriminate|discriminate]); [|tauto].
  rewrite Ok_bool, (H x y eq_refl). split; congruence.
Qed.
Lemma checked_true {A} (eq : A -> A -> bool) a b : (forall x y, eq x y = true <-> x = y) ->
  (attr_checked eq a b = Ok true <-> a = b).
Proof.
  intros H. destruct a as [x|], b as [y|]; cbn; try (split; [discriminate|discriminate]); [|tauto].
  rewrite Ok_bool, (H x y). split; congruence.
Qed.
Lemma time_true a b : attr_unchecked fl_eq a b = Ok true <-> same_time a b.
Proof.
  destruct a as [f|], b as [g|]; cbn; try (split; [discriminate|tauto]); [|tauto]. rewrite Ok_bool. apply fl_eq_value.
Qed.
Lemma hdr_eq_true a b : hdr_eq a b = true <-> a = b.
Proof.
  destruct a as [v t l [[x y] z] h], b as [v' t' l' [[x' y'] z'] h']. unfold hdr_eq. cbn [f_fields f_ver f_ptype f_plen f_hlen].
  rewrite !andb_true_iff, !Z.eqb_eq. split; [|intros [= -> -> -> -> -> -> ->]; tauto].
  intros H. decompose [and] H. congruence.
Qed.
Lemma tlv_eq_true a b : t_type a = t_type b -> (tlv_eq a b = true <-> a = b).
Proof.
  intros H. rewrite C53_tlv_eq_iff. destruct a, b; cbn in *. split; congruence.
Qed.
Lemma co_name_tlv c t n : co_tlv c = Ok t -> co_name c = Some n -> exists tn, name_tlv n = Ok tn.
Proof.
  intros H E. unfold co_tlv in H. rewrite E in H. cbn [wire_opt] in H. destruct (name_tlv n); [eauto|discriminate].
Qed.
Lemma names_true c t b : co_tlv c = Ok t -> (attr_unchecked name_eq (co_name c) b = Ok true <-> co_name c = b).
Proof.
  intros H. apply unchecked_true. intros x y E. destruct (co_name_tlv _ _ _ H E) as (tn & T). eapply C07_names_equal_iff. exact T.
Qed.
Lemma co_eq_true a b ta tb : co_tlv a = Ok ta -> co_tlv b = Ok tb ->
  (co_eq a b = Ok true <-> same_fields a b /\ ta = tb).
Proof.
  intros Ha Hb. unfold co_eq, same_fields. rewrite !and_then_true, (names_true a ta _ Ha).
  rewrite (unchecked_true Z.eqb) by (intros; apply Z.eqb_eq). rewrite (checked_true beqb) by apply beqb_spec.
  rewrite time_true, (checked_true Z.eqb) by apply Z.eqb_eq. rewrite Ha, Hb, Ok_bool. cbn [same_tlv].
  pose proof (co_tlv_ok _ _ Ha) as (_ & Ta & _). pose proof (co_tlv_ok _ _ Hb) as (_ & Tb & _).
  rewrite tlv_eq_true by congruence. tauto.
Qed.
Lemma co_eq_err a b ta e : co_tlv a = Ok ta ->
  (co_eq a b = Err e <-> e = AttributeError /\
    (one_sided (co_name a) (co_name b) \/
     co_name a = co_name b /\ one_sided (co_ptype a) (co_ptype b) \/
     co_name a = co_name b /\ co_ptype a = co_ptype b /\ co_payload a = co_payload b /\ one_sided (co_expiry a) (co_expiry b))).
Proof.
  intros Ha. unfold co_eq. rewrite !and_then_err, (names_true a ta _ Ha), !unchecked_err, !checked_err.
  rewrite (unchecked_true Z.eqb) by (intros; apply Z.eqb_eq). rewrite (checked_true beqb) by apply beqb_spec.
  rewrite Ok_err. tauto.
Qed.

(** * Packets *)
(* what a packet object consists of *)
Lemma packet_view p w : packet_wire p = Ok w -> exists h c b,
  hdr_serialize (p_hdr p) = Ok h /\ p_body p = BCO c /\ co_tlv c = Ok b /\
  (p_alg p = None /\ p_vpl p = None /\ w = h ++ wires [b] \/
   exists a v ta tv, p_alg p = Some a /\ p_vpl p = Some v /\ valg_tlv a = Ok ta /\ vpl_tlv v = Ok tv /\ w = h ++ wires [b; ta; tv]).
Proof.
  intros H. apply packet_wire_ok in H as (h & c & b & l2 & l3 & Hh & Hb & Hc & O2 & O3 & Hs & _ & -> & _).
  exists h, c, b. split; [assumption|]. split; [assumption|]. split; [assumption|].
  destruct (p_alg p) as [a|], (p_vpl p) as [v|]; cbn in Hs; try discriminate; cbn [opt_tlvs] in *.
  - destruct O2 as (ta & Ea & ->), O3 as (tv & Ev & ->). right. exists a, v, ta, tv. repeat split; assumption.
  - subst. left. auto.
Qed.
Lemma hdr_ser_len h b : hdr_serialize h = Ok b -> zlen b = 8.
Proof. intros H. apply hdr_serialize_ok in H as [-> _]. reflexivity. Qed.
Lemma crc_rsa_differ k pk kl st t t' : valg_tlv VCrc32c = Ok t -> valg_tlv (VRsa k pk kl st) = Ok t' -> t <> t'.
Proof.
  intros H H' <-. apply valg_tlv_ok in H as (_ & _ & i & Oi & Ei & ->). apply valg_tlv_ok in H' as (_ & _ & j & Oj & Ej & Tj & _).
  rewrite Ei in Ej. apply tlv_wire_inj in Ej; [|assumption..]. subst j. discriminate.
Qed.
Lemma valg_eq_true a b ta tb : valg_tlv a = Ok ta -> valg_tlv b = Ok tb -> (valg_eq a b = true <-> ta = tb).
Proof.
  intros Ha Hb. destruct a, b; cbn [valg_eq].
  - split; [congruence|reflexivity].
  - split; [discriminate|]. intros E. destruct (crc_rsa_differ _ _ _ _ _ _ Ha Hb E).
  - split; [discriminate|]. intros E. symmetry in E. destruct (crc_rsa_differ _ _ _ _ _ _ Hb Ha E).
  - rewrite Ha, Hb. cbn [same_tlv]. apply tlv_eq_true. apply valg_tlv_ok in Ha as (_ & -> & _). apply valg_tlv_ok in Hb as (_ & -> & _). reflexivity.
Qed.

Theorem C75_equal_iff : forall p q w w', packet_wire p = Ok w -> packet_wire q = Ok w' ->
  (packet_eq p q = Ok true <-> same_objects p q).
Proof.
  intros p q w w' Hp Hq. unfold packet_eq. rewrite !and_then_true. rewrite Hp, Hq. unfold same_objects. rewrite Hp, Hq.
  rewrite !Ok_bool, hdr_eq_true. cbn [same_wire]. rewrite beqb_spec.
  rewrite (unchecked_true beqb) by (intros; apply beqb_spec).
  apply packet_view in Hp as (h & c & b & Hh & Hb & Hc & Hv). apply packet_view in Hq as (h' & c' & b' & Hh' & Hb' & Hc' & Hv').
  rewrite Hb, Hb'. cbn [body_eq]. rewrite (co_eq_true _ _ _ _ Hc Hc').
  pose proof (co_tlv_ok _ _ Hc) as (Ob & _). pose proof (co_tlv_ok _ _ Hc') as (Ob' & _). split.
  - intros (H1 & (H2 & H3) & _ & H5 & H6). split; [assumption|]. split; [assumption|]. split; [congruence|]. eauto.
  - intros (H1 & H2 & H3 & x & y & Hx & Hy & HF). injection Hx as <-. injection Hy as <-. apply Ok_inj in H3.
    assert (h' = h) as -> by congruence.
    enough (b = b' /\ valg_attr_eq (p_alg p) (p_alg q) = Ok true) by tauto.
    destruct Hv as [(A1 & A2 & ->)|(a & v & ta & tv & A1 & A2 & A3 & A4 & ->)];
      destruct Hv' as [(B1 & B2 & ->)|(a' & v' & ta' & tv' & B1 & B2 & B3 & B4 & ->)]; try congruence;
      apply app_inv_head in H3; rewrite A1, B1.
    + apply wires_inj in H3; [|constructor; [assumption|constructor]..]. split; [congruence|reflexivity].
    + pose proof (valg_tlv_tlv_ok _ _ A3). pose proof (vpl_tlv_tlv_ok _ _ A4).
      pose proof (valg_tlv_tlv_ok _ _ B3). pose proof (vpl_tlv_tlv_ok _ _ B4).
      apply wires_inj in H3; [|repeat (constructor; [assumption|]); constructor..].
      injection H3 as -> -> _. split; [reflexivity|].
      pose proof (proj2 (valg_eq_true _ _ _ _ A3 B3) eq_refl) as V.
      unfold valg_attr_eq. destruct a, a'; cbn [attr_checked]; rewrite V; reflexivity.
Qed.

(* what the two sides of == send is the same, and so is the hash *)
Theorem C75_equal_sends_same : forall sha p q w w', packet_wire p = Ok w -> packet_wire q = Ok w' ->
  packet_eq p q = Ok true -> w = w' /\ packet_hash sha p = packet_hash sha q.
Proof.
  intros sha p q w w' Hp Hq H. apply (C75_equal_iff p q w w' Hp Hq) in H as (H1 & H2 & H3 & _).
  split; [congruence|]. rewrite Hp, Hq in H3. apply Ok_inj in H3. subst w'.
  unfold packet_hash. enough (packet_hash_input p = packet_hash_input q) as -> by reflexivity.
  apply packet_wire_ok in Hp as (h & c & b & l2 & l3 & Hh & _ & _ & _ & _ & _ & _ & Hw & ->).
  apply packet_wire_ok in Hq as (h' & c' & b' & l2' & l3' & Hh' & _ & _ & _ & _ & _ & _ & Hw' & ->).
  f_equal. assert (h = h') as -> by congruence. rewrite Hw in Hw'. apply app_inv_head in Hw'. exact Hw'.
Qed.

(* the first attribute in which the contents differ is None on one side *)
Definition reaches_none (a b : content) : Prop :=
  one_sided (co_name a) (co_name b) \/
  co_name a = co_name b /\ one_sided (co_ptype a) (co_ptype b) \/
  co_name a = co_name b /\ co_ptype a = co_ptype b /\ co_payload a = co_payload b /\ one_sided (co_expiry a) (co_expiry b).
Lemma valg_attr_err a b e : valg_attr_eq a b = Err e <->
  e = AttributeError /\ (a = None /\ b = Some VCrc32c \/ a = Some VCrc32c /\ b = None).
Proof.
  unfold valg_attr_eq. destruct a as [[|]|], b as [[|]|]; cbn [attr_checked]; split; try discriminate;
    try (intros (_ & [(? & ?)|(? & ?)]); discriminate); try (intros [= <-]; auto); intros (-> & _); reflexivity.
Qed.
(* == on two packet objects raises nothing but AttributeError, and exactly then *)
Theorem C75_raises_iff : forall p q w w' a b e, packet_wire p = Ok w -> packet_wire q = Ok w' ->
  p_body p = BCO a -> p_body q = BCO b ->
  (packet_eq p q = Err e <-> e = AttributeError /\ p_hdr p = p_hdr q /\
     (reaches_none a b \/
      same_fields a b /\ co_tlv a = co_tlv b /\
        (p_alg p = None /\ p_alg q = Some VCrc32c \/ p_alg p = Some VCrc32c /\ p_alg q = None))).
Proof.
  intros p q w w' a b e Hp Hq Ha Hb. unfold packet_eq, reaches_none.
  apply packet_view in Hp as (h & c & tb & Hh & Hbp & Hc & Hv). apply packet_view in Hq as (h' & c' & tb' & Hh' & Hbq & Hc' & Hv').
  rewrite Ha in Hbp. injection Hbp as <-. rewrite Hb in Hbq. injection Hbq as <-.
  rewrite Ha, Hb. cbn [body_eq]. rewrite !and_then_err, Ok_bool, hdr_eq_true, !Ok_err.
  rewrite (co_eq_err _ _ _ _ Hc), (co_eq_true _ _ _ _ Hc Hc'), valg_attr_err, unchecked_err.
  rewrite Hc, Hc'. assert (E : (Ok tb = Ok tb' :> res tlv) <-> tb = tb') by (split; congruence). rewrite E. clear E.
  assert (V : valg_attr_eq (p_alg p) (p_alg q) = Ok true -> ~ one_sided (p_vpl p) (p_vpl q)).
  { destruct Hv as [(A1 & A2 & _)|(x & v & ta & tv & A1 & A2 & _)];
      destruct Hv' as [(B1 & B2 & _)|(x' & v' & ta' & tv' & B1 & B2 & _)]; rewrite A1, A2, B1, B2; cbn [one_sided]; try tauto.
    - destruct x'; cbn; discriminate.
    - destruct x; cbn; discriminate. }
  tauto.
Qed.
(* the packets the package makes have the length of what follows in their
   header: there only the content objects matter *)
Lemma created_len p w : storable p -> packet_wire p = Ok w -> f_plen (p_hdr p) = zlen w.
Proof.
  intros (c & Wc & [H|(a & v & Wa & H)]) Hw.
  - apply (C09_unsigned_packet_roundtrip (mkFl 0 0) c p w Wc H Hw).
  - apply (C09_signed_packet_roundtrip (mkFl 0 0) c a v p w Wc Wa H Hw).
Qed.
Theorem C75_created_raises_iff : forall p q w w' a b e, storable p -> storable q ->
  packet_wire p = Ok w -> packet_wire q = Ok w' -> p_body p = BCO a -> p_body q = BCO b ->
  (packet_eq p q = Err e <-> e = AttributeError /\ zlen w = zlen w' /\ reaches_none a b).
Proof.
  intros p q w w' a b e Sp Sq Hp Hq Ha Hb. rewrite (C75_raises_iff p q w w' a b e Hp Hq Ha Hb).
  pose proof (created_len _ _ Sp Hp) as Lp. pose proof (created_len _ _ Sq Hq) as Lq.
  assert (Hd : forall r, storable r -> p_hdr r = hdr_content (f_plen (p_hdr r))).
  { intros r (c & _ & [H|(al & v & _ & H)]).
    - unfold create_content_object in H. mon. subst r. reflexivity.
    - unfold create_signed_content_object in H. mon. subst r. reflexivity. }
  assert (E : p_hdr p = p_hdr q <-> zlen w = zlen w').
  { split; [congruence|]. intros E. rewrite (Hd p Sp), (Hd q Sq), Lp, Lq, E. reflexivity. }
  rewrite E. split; [|tauto]. intros (He & Hl & [H|(_ & Et & Hal)]); [tauto|]. exfalso.
  apply packet_view in Hp as (h & c & tb & Hh & Hbp & Hc & Hv). apply packet_view in Hq as (h' & c' & tb' & Hh' & Hbq & Hc' & Hv').
  rewrite Ha in Hbp. injection Hbp as <-. rewrite Hb in Hbq. injection Hbq as <-. rewrite Hc, Hc' in Et. apply Ok_inj in Et. subst tb'.
  apply hdr_ser_len in Hh, Hh'.
  destruct Hv as [(A1 & A2 & ->)|(x & v & ta & tv & A1 & A2 & _ & _ & ->)];
    destruct Hv' as [(B1 & B2 & ->)|(x' & v' & ta' & tv' & B1 & B2 & _ & _ & ->)]; try (destruct Hal as [(? & ?)|(? & ?)]; congruence);
    rewrite !zlen_app, !wires_cons, !zlen_app, !zlen_tlv_wire in Hl; change (zlen (wires [])) with 0 in Hl.
  - pose proof (tlv_len_ge ta'). pose proof (tlv_len_ge tv'). lia.
  - pose proof (tlv_len_ge ta). pose proof (tlv_len_ge tv). lia.
Qed.

(* == is an equivalence on packet objects *)
Lemma same_time_refl a : same_time a a.
Proof. destruct a; cbn; [reflexivity|exact I]. Qed.
Lemma same_time_sym a b : same_time a b -> same_time b a.
Proof. destruct a, b; cbn; try tauto. intros H. rewrite H. reflexivity. Qed.
Lemma same_time_trans a b c : same_time a b -> same_time b c -> same_time a c.
Proof. destruct a, b, c; cbn; try tauto. intros H. rewrite H. tauto. Qed.
Theorem C75_equivalence : forall p q r w w' w'', packet_wire p = Ok w -> packet_wire q = Ok w' -> packet_wire r = Ok w'' ->
  packet_eq p p = Ok true /\ (packet_eq p q = Ok true -> packet_eq q p = Ok true) /\
  (packet_eq p q = Ok true -> packet_eq q r = Ok true -> packet_eq p r = Ok true).
Proof.
  intros p q r w w' w'' Hp Hq Hr.
  rewrite (C75_equal_iff _ _ _ _ Hp Hp), (C75_equal_iff _ _ _ _ Hp Hq), (C75_equal_iff _ _ _ _ Hq Hp),
    (C75_equal_iff _ _ _ _ Hq Hr), (C75_equal_iff _ _ _ _ Hp Hr). unfold same_objects, same_fields. split; [|split].
  - apply packet_view in Hp as (h & c & tb & Hh & Hbp & Hc & Hv). repeat (split; [reflexivity|]).
    exists c, c. repeat (split; [assumption || reflexivity|]). split; [apply same_time_refl|reflexivity].
  - intros (H1 & H2 & H3 & a & b & Ha & Hb & F1 & F2 & F3 & F4 & F5). repeat (split; [congruence|]).
    exists b, a. repeat (split; [congruence|]). split; [apply same_time_sym; assumption|congruence].
  - intros (H1 & H2 & H3 & a & b & Ha & Hb & F1 & F2 & F3 & F4 & F5) (G1 & G2 & G3 & b' & c & Hb' & Hc & K1 & K2 & K3 & K4 & K5).
    rewrite Hb in Hb'. injection Hb' as <-. repeat (split; [congruence|]).
    exists a, c. repeat (split; [congruence|]). split; [eapply same_time_trans; eassumption|congruence].
Qed.

(* A packet and what its own wire image is parsed to: equal exactly when no
   component of the name is a chunk id or manifest id made by the package
   (an array).  The comparison never raises, and two parses are equal. *)
Theorem C75_parsed : forall now p w, storable p -> packet_wire p = Ok w ->
  exists p', packet_deserialize now w = Ok p' /\ packet_wire p' = Ok w /\
    ((forall n c, body_name p = Some n -> In c n -> c_kind c = KBytes) -> packet_eq p p' = Ok true /\ packet_eq p' p = Ok true) /\
    (~ (forall n c, body_name p = Some n -> In c n -> c_kind c = KBytes) -> packet_eq p p' = Ok false /\ packet_eq p' p = Ok false) /\
    packet_eq p' p' = Ok true.
Proof.
  intros now p w S Hw. destruct (storable_wf _ S) as (w' & Wf & _). exists (packet_norm p).
  split; [apply packet_roundtrip; assumption|]. rewrite packet_wire_norm. split; [assumption|].
  assert (Hn : packet_wire (packet_norm p) = Ok w) by (rewrite packet_wire_norm; assumption).
  pose proof Hw as V. apply packet_view in V as (h & c & tb & Hh & Hb & Hc & Hv).
  assert (Hbn : p_body (packet_norm p) = BCO (co_norm c)) by (unfold packet_norm; cbn [p_body]; rewrite Hb; reflexivity).
  assert (En : body_name p = co_name c) by (unfold body_name; rewrite Hb; reflexivity).
  assert (Hc' : co_tlv (co_norm c) = Ok tb) by (rewrite co_tlv_norm; assumption).
  assert (K : (forall n x, body_name p = Some n -> In x n -> c_kind x = KBytes) <-> co_name c = co_name (co_norm c)).
  { rewrite En. unfold co_norm; cbn [co_name]. destruct (co_name c) as [n|]; cbn [option_map].
    - split; [intros H; f_equal; symmetry; apply kinds_norm; intros x; apply H; reflexivity|].
      intros E m x [= <-]. apply kinds_norm. congruence.
    - split; [reflexivity|]. discriminate. }
  rewrite K. clear K.
  assert (O : forall r s a b, packet_wire r = Ok w -> packet_wire s = Ok w -> p_hdr r = p_hdr s -> p_alg r = p_alg s -> p_vpl r = p_vpl s ->
    p_body r = BCO a -> p_body s = BCO b -> co_tlv a = Ok tb -> co_tlv b = Ok tb ->
    co_ptype a = co_ptype b -> co_payload a = co_payload b -> co_expiry a = co_expiry b -> co_fcid a = co_fcid b ->
    ~ one_sided (co_name a) (co_name b) ->
    (co_name a = co_name b -> packet_eq r s = Ok true) /\ (co_name a <> co_name b -> packet_eq r s = Ok false)).
  { intros r s a b Wr Ws E1 E2 E3 Ba Bb Ca Cb F1 F2 F3 F4 F5. split.
    - intros F0. apply (C75_equal_iff r s w w Wr Ws). split; [assumption|]. split; [assumption|]. split; [congruence|].
      exists a, b. repeat (split; [assumption|]). split; [rewrite F3; apply same_time_refl|assumption].
    - intros F0. destruct (packet_eq r s) as [[|]|e] eqn:E; [|reflexivity|].
      + apply (C75_equal_iff r s w w Wr Ws) in E as (_ & _ & _ & a' & b' & Ea & Eb & G & _). exfalso. apply F0. congruence.
      + exfalso. apply (C75_raises_iff r s w w a b e Wr Ws Ba Bb) in E as (_ & _ & [[H|[(H & _)|(H & _)]]|((H & _) & _)]); tauto. }
  assert (N1 : ~ one_sided (co_name c) (co_name (co_norm c))) by (unfold co_norm; cbn [co_name]; destruct (co_name c); cbn; tauto).
  assert (N2 : ~ one_sided (co_name (co_norm c)) (co_name c)) by (unfold co_norm; cbn [co_name]; destruct (co_name c); cbn; tauto).
  destruct (O p (packet_norm p) c (co_norm c)) as (X1 & X2); try assumption; try reflexivity.
  destruct (O (packet_norm p) p (co_norm c) c) as (Y1 & Y2); try assumption; try reflexivity.
  split; [intros H; split; [exact (X1 H)|exact (Y1 (eq_sym H))]|].
  split; [intros H; split; [exact (X2 H)|exact (Y2 (fun E => H (eq_sym E)))]|].
  apply (C75_equivalence (packet_norm p) p p w w w Hn Hw Hw).
Qed.

(** * Equal times are encoded alike *)
Lemma div_ratio a b a' b' : 0 < b -> 0 < b' -> a * b' = a' * b -> a / b = a' / b'.
Proof.
  intros Hb Hb' E. rewrite <- (Z.div_mul_cancel_r a b b') by lia. rewrite E, (Z.mul_comm b b'). apply Z.div_mul_cancel_r; lia.
Qed.
Lemma rne_ratio a b a' b' : 0 < b -> 0 < b' -> a * b' = a' * b -> rne a b = rne a' b'.
Proof.
  intros Hb Hb' E. unfold rne. rewrite <- (div_ratio a b a' b' Hb Hb' E). set (q := a / b).
  assert (R : (a mod b) * b' = (a' mod b') * b).
  { rewrite (Z.mod_eq a b), (Z.mod_eq a' b') by lia. rewrite <- (div_ratio a b a' b' Hb Hb' E). fold q. nia. }
  set (r := a mod b) in *. set (r' := a' mod b') in *.
  replace (2 * r' <? b') with (2 * r <? b) by (destruct (2 * r <? b) eqn:X, (2 * r' <? b') eqn:Y; nia).
  replace (b' <? 2 * r') with (b <? 2 * r) by (destruct (b <? 2 * r) eqn:X, (b' <? 2 * r') eqn:Y; nia).
  reflexivity.
Qed.
(* the exponent is determined by the ratio *)
Lemma exp_ratio a b e e' : 0 < a -> 0 < b -> e < e' ->
  a * 2 ^ Z.max 0 (- e) < b * 2 ^ Z.max 0 e * 2 ^ 53 -> b * 2 ^ Z.max 0 e' * 2 ^ 52 <= a * 2 ^ Z.max 0 (- e') -> False.
Proof.
  intros Ha Hb He H1 H2. set (K := Z.max 0 (-e)). set (K' := Z.max 0 (- e')).
  assert (P : 0 < 2 ^ K /\ 0 < 2 ^ K') by (split; apply pow2_pos; unfold K, K'; lia).
  assert (A : a * 2 ^ K * 2 ^ K' < b * 2 ^ Z.max 0 e * 2 ^ 53 * 2 ^ K') by (apply Z.mul_lt_mono_pos_r; tauto).
  assert (B : b * 2 ^ Z.max 0 e' * 2 ^ 52 * 2 ^ K <= a * 2 ^ K' * 2 ^ K) by (apply Z.mul_le_mono_nonneg_r; [lia|exact H2]).
  assert (C : b * 2 ^ Z.max 0 e * 2 ^ 53 * 2 ^ K' <= b * 2 ^ Z.max 0 e' * 2 ^ 52 * 2 ^ K).
  { rewrite <- !Z.mul_assoc. apply Z.mul_le_mono_nonneg_l; [lia|]. rewrite <- !Z.pow_add_r by (unfold K, K'; lia).
    apply Z.pow_le_mono_r; unfold K, K'; lia. }
  nia.
Qed.
Lemma fl_exp_ratio a b a' b' : 0 < a -> 0 < b -> 0 < a' -> 0 < b' -> a * b' = a' * b -> fl_exp a b = fl_exp a' b'.
Proof.
  intros Ha Hb Ha' Hb' E. pose proof (fl_exp_spec a b Ha Hb) as S. pose proof (fl_exp_spec a' b' Ha' Hb') as S'. cbn zeta in *.
  set (e := fl_exp a b) in *. set (e' := fl_exp a' b') in *.
  (* both in terms of a * b' and b * b' *)
  assert (U : b * b' * 2 ^ Z.max 0 e * 2 ^ 52 <= a * b' * 2 ^ Z.max 0 (- e) < b * b' * 2 ^ Z.max 0 e * 2 ^ 53) by (set (u := 2 ^ 52) in *; set (v := 2 ^ 53) in *; nia).
  assert (V : b * b' * 2 ^ Z.max 0 e' * 2 ^ 52 <= a * b' * 2 ^ Z.max 0 (- e') < b * b' * 2 ^ Z.max 0 e' * 2 ^ 53) by (rewrite E; set (u := 2 ^ 52) in *; set (v := 2 ^ 53) in *; nia).
  destruct (Z.lt_trichotomy e e') as [L|[L|L]]; [|assumption|]; exfalso.
  - apply (exp_ratio (a * b') (b * b') e e'); try lia; nia.
  - apply (exp_ratio (a * b') (b * b') e' e); try lia; nia.
Qed.
Lemma fl_round_ratio a b a' b' : 0 <= a -> 0 < b -> 0 <= a' -> 0 < b' -> a * b' = a' * b -> fl_round a b = fl_round a' b'.
Proof.
  intros Ha Hb Ha' Hb' E. unfold fl_round. destruct (a =? 0) eqn:Za.
  - replace (a' =? 0) with true by nia. reflexivity.
  - replace (a' =? 0) with false by nia. rewrite (fl_exp_ratio a b a' b') by nia. f_equal. set (e := fl_exp a' b').
    pose proof (pow2_pos (Z.max 0 (- e)) ltac:(lia)). pose proof (pow2_pos (Z.max 0 e) ltac:(lia)).
    apply rne_ratio; [nia|nia|]. transitivity ((a * b') * (2 ^ Z.max 0 (- e) * 2 ^ Z.max 0 e)); [ring|]. rewrite E. ring.
Qed.
Lemma fl_num_nonneg f : 0 <= fm f -> 0 <= fl_num f.
Proof. intros H. unfold fl_num. pose proof (pow2_pos (Z.max 0 (fe f)) ltac:(lia)). nia. Qed.
Lemma ts_msec_value f g : 0 <= fm f -> 0 <= fm g -> (fl_value f == fl_value g)%Q -> ts_msec f = ts_msec g.
Proof.
  intros Hf Hg E. apply fl_eq_value in E. unfold fl_eq in E. apply Z.eqb_eq in E.
  pose proof (fl_num_nonneg _ Hf). pose proof (fl_num_nonneg _ Hg). unfold ts_msec, fl_mul_Z.
  rewrite (fl_round_ratio (fl_num f * 1000) (fl_den f) (fl_num g * 1000) (fl_den g)); [reflexivity|lia|apply fl_den_pos|lia|apply fl_den_pos|lia].
Qed.
Definition since_1970 (c : content) : Prop := forall f, co_expiry c = Some f -> 0 <= fm f.
Lemma same_fields_tlv a b : since_1970 a -> since_1970 b -> same_fields a b -> co_tlv a = co_tlv b.
Proof.
  intros Ha Hb (E1 & E2 & E3 & E4 & E5). unfold co_tlv. rewrite E1, E2, E3, E5.
  enough (wire_opt (ts_tlv T_EXPIRY) (co_expiry a) = wire_opt (ts_tlv T_EXPIRY) (co_expiry b)) as -> by reflexivity.
  destruct (co_expiry a) as [f|] eqn:Ef, (co_expiry b) as [g|] eqn:Eg; cbn [same_time] in E4; try contradiction; [|reflexivity].
  cbn [wire_opt]. unfold ts_tlv. rewrite (ts_msec_value f g (Ha f Ef) (Hb g Eg) E4). reflexivity.
Qed.

(* Packets made from content objects: == compares the content objects field by
   field, the expiry times as numbers, and the two validation sections. *)
Theorem C75_created : forall a b p q, since_1970 a -> since_1970 b ->
  create_content_object a = Ok p -> create_content_object b = Ok q ->
  (packet_eq p q = Ok true <-> same_fields a b).
Proof.
  intros a b p q Ia Ib Hp Hq. unfold create_content_object in Hp, Hq. mon. subst.
  rewrite (C75_equal_iff _ _ _ _ E2 E0). unfold same_objects. cbn [p_body]. split.
  - intros (_ & _ & _ & x & y & [= <-] & [= <-] & F). exact F.
  - intros F. pose proof (same_fields_tlv _ _ Ia Ib F) as T. rewrite E1, E in T. apply Ok_inj in T. subst a2.
    repeat (split; [reflexivity|]). split.
    + unfold packet_wire. cbn [p_alg p_vpl is_none Bool.eqb guard bind p_hdr p_body body_wire]. rewrite E1, E. reflexivity.
    + exists a, b. auto.
Qed.
Theorem C75_created_signed : forall a b x y v u p q, since_1970 a -> since_1970 b ->
  create_signed_content_object a x v = Ok p -> create_signed_content_object b y u = Ok q ->
  (packet_eq p q = Ok true <-> same_fields a b /\ valg_tlv x = valg_tlv y /\ v = u).
Proof.
  intros a b x y v u p q Ia Ib Hp Hq.
  assert (Op : exists tx, valg_tlv x = Ok tx /\ p_alg p = Some x /\ p_vpl p = Some v /\ p_body p = BCO a /\ exists w, packet_wire p = Ok w).
  { unfold create_signed_content_object in Hp. mon. subst. eauto 8. }
  assert (Oq : exists ty, valg_tlv y = Ok ty /\ p_alg q = Some y /\ p_vpl q = Some u /\ p_body q = BCO b /\ exists w, packet_wire q = Ok w).
  { unfold create_signed_content_object in Hq. mon. subst. eauto 8. }
  destruct Op as (tx & Ex & Ap & Vp & Bp & w & Wp), Oq as (ty & Ey & Aq & Vq & Bq & w' & Wq). split.
  - intros H. pose proof H as Q. apply (C75_equal_iff _ _ _ _ Wp Wq) in Q as (_ & Ev & _ & a' & b' & Ea & Eb & F).
    unfold packet_eq in H. rewrite !and_then_true in H. destruct H as (_ & _ & Hv & _). rewrite Ap, Aq in Hv.
    assert (a' = a) as -> by congruence. assert (b' = b) as -> by congruence. split; [assumption|]. split; [|congruence].
    assert (Z : valg_eq x y = true). { destruct x, y; cbn [valg_attr_eq attr_checked] in Hv; congruence. }
    apply (valg_eq_true _ _ _ _ Ex Ey) in Z. congruence.
  - intros (F & Et & <-). apply (C75_equal_iff _ _ _ _ Wp Wq). pose proof (same_fields_tlv _ _ Ia Ib F) as T.
    unfold create_signed_content_object in Hp, Hq. rewrite <- T, <- Et in Hq.
    inv_bind Hp. inv_bind Hp. inv_bind Hp. inv_bind Hp. apply Ok_inj in Hp. rewrite E, E0, E1 in Hq. cbn [bind] in Hq.
    inv_bind Hq. apply Ok_inj in Hq. subst p q.
    split; [reflexivity|]. split; [reflexivity|]. split; [|exists a, b; auto].
    unfold packet_wire. cbn [p_alg p_vpl is_none Bool.eqb guard bind p_hdr p_body body_wire wire_opt]. rewrite <- T, <- Et. reflexivity.
Qed.

(** * Links *)
Lemma hash_checked_none a b : attr_checked hashv_eq a b = Ok true -> is_none a = is_none b.
Proof. destruct a, b; cbn; try discriminate; reflexivity. Qed.
Lemma link_name_true l w b : link_wire l = Ok w -> (attr_unchecked name_eq (l_name l) b = Ok true <-> l_name l = b).
Proof.
  intros H. apply unchecked_true. intros x y E. unfold link_wire in H. rewrite E in H. cbn [wire_opt] in H.
  destruct (name_tlv x) as [t|] eqn:T; [|discriminate]. eapply C07_names_equal_iff. exact T.
Qed.
Lemma hashv_eq_refl h : hashv_eq h h = true.
Proof. unfold hashv_eq. apply C53_tlv_eq_iff. reflexivity. Qed.
Lemma hash_checked_refl a : attr_checked hashv_eq a a = Ok true.
Proof. destruct a; cbn; [rewrite hashv_eq_refl|]; reflexivity. Qed.
Lemma link_eq_true a b w w' : link_wire (lo_link a) = Ok w -> link_wire (lo_link b) = Ok w' ->
  (link_eq a b = Ok true <-> a = b).
Proof.
  intros Ha Hb. unfold link_eq. rewrite !and_then_true, Ha, Hb, (link_name_true _ _ _ Ha), Ok_bool, andb_true_iff, Z.eqb_eq.
  cbn [same_wire]. rewrite beqb_spec. split.
  - intros (E1 & E2 & E3 & E4 & ->). apply link_roundtrip in Ha, Hb. rewrite Ha in Hb. apply Ok_inj in Hb.
    destruct a as [[n k d] o], b as [[n' k' d'] o']. cbn [lo_link lo_offset l_name l_keyid l_digest link_norm] in *.
    injection Hb as _ -> ->. congruence.
  - intros <-. rewrite Ha in Hb. apply Ok_inj in Hb. rewrite !hash_checked_refl. auto.
Qed.
(* two links just made are equal exactly when they have the same parts *)
Theorem C75_links : forall l m a b, link_new l = Ok a -> link_new m = Ok b -> (link_eq a b = Ok true <-> l = m).
Proof.
  intros l m a b Ha Hb. unfold link_new in *. mon. subst. rewrite (link_eq_true (mkLO l 0) (mkLO m 0) _ _ E0 E). split; [|intros ->; reflexivity].
  intros [= ->]. reflexivity.
Qed.
(* they compare with an AttributeError exactly when one of them has a name *)
Theorem C75_links_raise : forall l m a b e, link_new l = Ok a -> link_new m = Ok b ->
  (link_eq a b = Err e <-> e = AttributeError /\ one_sided (l_name l) (l_name m)).
Proof.
  intros l m a b e Ha Hb. unfold link_new in *. mon. subst. unfold link_eq. cbn [lo_link].
  rewrite !and_then_err, unchecked_err, !checked_err, Ok_err. tauto.
Qed.
(* making a KeyLink of a link changes that link: it is then unequal to every
   link just made, itself included, unless it is empty *)
Theorem C75_keylink_changes_link : forall l m w a a' b, link_wire l = Ok w -> w <> [] ->
  link_new l = Ok a -> keylink_new a = Ok a' -> link_new m = Ok b ->
  link_eq a' b <> Ok true /\ link_eq a' a' = Ok true /\ lo_link a' = l.
Proof.
  intros l m w a a' b Hw Hne Ha Hk Hb. unfold link_new in *. mon. subst. unfold keylink_new in Hk. mon. subst.
  unfold link_iterated. cbn [lo_link]. rewrite Hw. split; [|split; [|reflexivity]].
  - match goal with Hm : link_wire m = Ok ?x |- _ => rewrite (link_eq_true (mkLO l (zlen w)) (mkLO m 0) w x Hw Hm) end. intros [= _ Hz]. apply Hne. destruct w; [reflexivity|discriminate Hz].
  - apply (link_eq_true _ _ w w); cbn [lo_link]; auto.
Qed.

(** * Pointers *)
Lemma hashes_eq_refl l : hashes_eq l l = true.
Proof. induction l as [|h l IH]; [reflexivity|]. cbn [hashes_eq]. rewrite hashv_eq_refl. exact IH. Qed.
(* just made: equal exactly when they list the same hashes, algorithms included *)
Theorem C75_pointers : forall l m a b, ptrs_new l = Ok a -> ptrs_new m = Ok b -> (ptrs_eq a b = true <-> l = m).
Proof.
  intros l m a b Ha Hb. unfold ptrs_new in *. mon. subst. rename a1 into t, a0 into u.
  unfold ptrs_eq. cbn [po_offset po_hashes]. rewrite E0, E. cbn [same_tlv]. split.
  - rewrite !andb_true_iff. intros (_ & H).
    pose proof (ptrs_tlv_ok _ _ E0) as (_ & T1 & _). pose proof (ptrs_tlv_ok _ _ E) as (_ & T2 & _).
    apply tlv_eq_true in H; [|congruence]. subst u. apply ptrs_roundtrip in E0, E. congruence.
  - intros <-. rewrite E0 in E. apply Ok_inj in E. subst u. rewrite hashes_eq_refl. cbn [andb].
    apply C53_tlv_eq_iff. reflexivity.
Qed.
(* a list that was iterated over differs from every list just made, itself
   included; two lists that were both iterated over compare as before *)
Theorem C75_iterated_pointers : forall l m a b, ptrs_new l = Ok a -> ptrs_new m = Ok b ->
  ptrs_eq (ptrs_iterated a) b = false /\ ptrs_eq a (ptrs_iterated b) = false /\
  (ptrs_eq (ptrs_iterated a) (ptrs_iterated b) = true <-> l = m).
Proof.
  intros l m a b Ha Hb. pose proof (C75_pointers l m a b Ha Hb) as P. unfold ptrs_new in *. mon. subst.
  split; [reflexivity|]. split; [reflexivity|]. rewrite <- P. unfold ptrs_eq, ptrs_iterated. cbn [po_offset po_hashes].
  rewrite !andb_true_iff. split; [tauto|]. intros H. assert (l = m) as <- by (apply P; unfold ptrs_eq; cbn [po_offset po_hashes]; rewrite !andb_true_iff; tauto).
  rewrite Z.eqb_refl. tauto.
Qed.

(** * Manifests *)
(* compared by their bytes: a manifest equals what its bytes are parsed to, and
   equal manifests have the same content *)
Theorem C75_manifests : forall m w, man_wf m -> unpadded m -> man_wire m = Ok w ->
  exists m', man_deserialize w = Ok m' /\ same_manifest m' m /\ man_eq m m' = true /\
    forall b wb, man_wf b -> man_wire b = Ok wb -> (man_eq m b = true -> same_manifest m' b).
Proof.
  intros m w W U H. exists (man_norm m). split; [apply man_roundtrip; assumption|]. split; [apply same_man_norm|]. split.
  - unfold man_eq. rewrite man_norm_wire_eq by assumption. rewrite H. apply beqb_refl.
  - intros b wb Wb Hb E. unfold man_eq in E. rewrite H, Hb in E. cbn [same_wire] in E. apply beqb_spec in E. subst wb.
    pose proof (man_roundtrip _ _ W H) as R. rewrite (man_roundtrip _ _ Wb Hb) in R. apply Ok_inj in R. rewrite <- R. apply same_man_norm.
Qed.

(** * Examples *)
Definition eq_name : name := [mkComp 1 KBytes [97]].
Definition eq_data (n : option name) (b : bytes) : content := mkCO n (Some 0) (Some b) None None.
(* a signed packet: the example of C09, equal to itself; its name has an array,
   so it differs from its parse *)
Example C75_ex : exists p w, create_signed_content_object ex_co
    (VRsa (mkHash 1 (repeat 7 32)) None None (mkFl 6585057280515899 (-22))) [1; 2] = Ok p /\ packet_wire p = Ok w /\
  packet_eq p p = Ok true /\
  match packet_deserialize (mkFl 0 0) w with
  | Ok p' => packet_eq p p' = Ok false /\ packet_eq p' p' = Ok true
  | Err _ => False
  end.
Proof. do 2 eexists. split; [vm_compute; reflexivity|]. split; [vm_compute; reflexivity|]. vm_compute. auto. Qed.
(* without chunk id *)
Example C75_plain_ex : exists p w, create_content_object (eq_data (Some eq_name) [1; 2]) = Ok p /\ packet_wire p = Ok w /\
  match packet_deserialize (mkFl 0 0) w with
  | Ok p' => packet_eq p p' = Ok true
  | Err _ => False
  end.
Proof. do 2 eexists. split; [vm_compute; reflexivity|]. split; [vm_compute; reflexivity|]. vm_compute. reflexivity. Qed.
(* the same instant written in two ways *)
Example C75_time_ex : exists p q,
  create_content_object (mkCO None None None (Some (mkFl 6585057280515899 (-22))) None) = Ok p /\
  create_content_object (mkCO None None None (Some (mkFl (2 * 6585057280515899) (-23))) None) = Ok q /\ p <> q /\
  packet_eq p q = Ok true.
Proof. do 2 eexists. split; [vm_compute; reflexivity|]. split; [vm_compute; reflexivity|]. split; [discriminate|vm_compute; reflexivity]. Qed.
(* "two packets can always be compared" is false: a named and a nameless one of
   the same length *)
Theorem C75_comparable_refuted : exists p q w w', create_content_object (eq_data (Some eq_name) []) = Ok p /\
  create_content_object (eq_data None (repeat 0 9)) = Ok q /\ packet_wire p = Ok w /\ packet_wire q = Ok w' /\
  packet_eq p q = Err AttributeError /\ packet_eq q p = Err AttributeError.
Proof.
  do 4 eexists. do 4 (split; [vm_compute; reflexivity|]). vm_compute. auto.
Qed.
(* of different length: unequal, without exception *)
Example C75_length_ex : exists p q, create_content_object (eq_data (Some eq_name) []) = Ok p /\
  create_content_object (eq_data None []) = Ok q /\ packet_eq p q = Ok false.
Proof. do 2 eexists. do 2 (split; [vm_compute; reflexivity|]). vm_compute. reflexivity. Qed.
Example C75_link_ex : exists w a a', link_wire (mkLink (Some eq_name) None None) = Ok w /\ w <> [] /\
  link_new (mkLink (Some eq_name) None None) = Ok a /\ keylink_new a = Ok a' /\ link_eq a a' = Ok false.
Proof. do 3 eexists. split; [vm_compute; reflexivity|]. split; [discriminate|]. do 2 (split; [vm_compute; reflexivity|]). vm_compute. reflexivity. Qed.
Example C75_pointers_ex : exists a, ptrs_new [mkHash 1 [1; 2]; mkHash 1 [3]] = Ok a /\ ptrs_eq a a = true /\ ptrs_eq (ptrs_iterated a) a = false.
Proof. eexists. split; [vm_compute; reflexivity|]. vm_compute. auto. Qed.
Example C75_manifest_ex : man_wf ex_man /\ unpadded ex_man /\ exists w, man_wire ex_man = Ok w.
Proof. destruct C16_ex as (_ & W & _ & H & _). split; [exact W|]. split; [intros n [= <-]; reflexivity|exact H]. Qed.
Example C75_since_ex : since_1970 ex_co.
Proof. intros f [= <-]. cbn. lia. Qed.

Print Assumptions C75_equal_iff.
Print Assumptions C75_equal_sends_same.
Print Assumptions C75_raises_iff.
Print Assumptions C75_created_raises_iff.
Print Assumptions C75_equivalence.
Print Assumptions C75_parsed.
Print Assumptions C75_created.
Print Assumptions C75_created_signed.
Print Assumptions C75_links.
Print Assumptions C75_links_raise.
Print Assumptions C75_keylink_changes_link.
Print Assumptions C75_pointers.
Print Assumptions C75_iterated_pointers.
Print Assumptions C75_manifests.
Print Assumptions C75_comparable_refuted.
