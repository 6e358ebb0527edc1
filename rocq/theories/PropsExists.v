(* C08, C09, C15 and C16: whatever has fields in range and fits can be built. *)
From Coq Require Import ZArith List Bool Lia ZifyBool.
From Verif Require Import Py Tlv Float Core Flic Spec WireSpec TlvProofs FloatProofs CoreProofs FlicProofs PropsTlv PropsCore PropsFlic PropsWire.
Import ListNotations.
Open Scope Z_scope.
Opaque tlv_make tlv_wire tlv_deserialize.

(* ---------------- specification: fields in range ---------------- *)

Definition opt_all {A} (Q : A -> Prop) (o : option A) : Prop := forall a, o = Some a -> Q a.
Definition u64 (n : Z) : Prop := 0 <= n < 2 ^ 64.

Definition name_ok (n : name) : Prop := Forall (fun c => frameable (c_type c) (c_val c)) n.
Definition link_ok (l : link) : Prop :=
  opt_all name_ok (l_name l) /\ opt_all hash_ok (l_keyid l) /\ opt_all hash_ok (l_digest l).
(* a list of locators is not empty and each of them has a name *)
Definition locators_ok (ls : list link) : Prop :=
  ls <> [] /\ Forall (fun l => link_ok l /\ l_name l <> None) ls.
(* schemas cannot have protocol flags *)
Definition schema_ok (s : schema) : Prop :=
  match s with
  | SHash ls fl => opt_all locators_ok ls /\ fl = None
  | SPrefix n ls fl => opt_all name_ok n /\ opt_all locators_ok ls /\ fl = None
  | SSeg n x ls fl => opt_all name_ok n /\ opt_all (fun k => 0 <= k < 65536) x /\ opt_all locators_ok ls /\ fl = None
  end.
Definition ncdef_ok (d : ncdef) : Prop := opt_all u64 (nd_id d) /\ opt_all schema_ok (nd_schema d).
Definition vendor_ok (v : vendor) : Prop := 0 <= v_pen v < 2 ^ 24 /\ all_bytes (v_payload v).
Definition node_data_ok (d : ndata) : Prop :=
  opt_all u64 (nd_size d) /\ opt_all hash_ok (nd_digest d) /\ opt_all locators_ok (nd_locators d) /\
  Forall vendor_ok (nd_vendors d) /\ Forall ncdef_ok (nd_ncdefs d).
Definition group_data_ok (g : gdata) : Prop :=
  opt_all u64 (gd_subtree_size g) /\ opt_all hash_ok (gd_subtree_digest g) /\ opt_all u64 (gd_leaf_size g) /\
  opt_all hash_ok (gd_leaf_digest g) /\ opt_all u64 (gd_nc_id g) /\ opt_all u64 (gd_start g).
Definition group_ok (h : hgroup) : Prop :=
  opt_all group_data_ok (hg_data h) /\ opt_all (Forall hash_ok) (hg_ptrs h).
Definition node_ok (n : node) : Prop :=
  opt_all node_data_ok (n_data n) /\ n_groups n <> [] /\ Forall group_ok (n_groups n).
Definition kdf_ok (k : kdf) : Prop := u64 (k_alg k) /\ opt_all all_bytes (k_info k).
Definition aead_ok (a : aead) : Prop :=
  u64 (a_keynum a) /\ all_bytes (a_nonce a) /\ opt_all u64 (a_mode a) /\ opt_all kdf_ok (a_kdf a).
Definition wrapper_ok (w : wrapper) : Prop :=
  hash_ok (w_keyid w) /\ opt_all link_ok (w_keylink w) /\ opt_all u64 (w_hashalg w) /\ opt_all all_bytes (w_key w).
Definition ctx_ok (c : secctx) : Prop :=
  match c with CAead a => aead_ok a | CRsa a w => aead_ok a /\ opt_all wrapper_ok w end.
Definition manifest_ok (m : manifest) : Prop :=
  opt_all ctx_ok (m_ctx m) /\ match m_node m with MNode n => node_ok n | MEnc b => all_bytes b end /\
  opt_all all_bytes (m_tag m).
(* the expiry time comes to [ms] milliseconds *)
Definition content_ok (c : content) (ms : option Z) : Prop :=
  opt_all name_ok (co_name c) /\ opt_all (fun p => 0 <= p < 256) (co_ptype c) /\ opt_all all_bytes (co_payload c) /\
  opt_ms (co_expiry c) ms /\ opt_all u64 (co_fcid c).

(* ---------------- encoders that succeed ---------------- *)

(* the encoder gives a TLV with this wire image *)
Definition can {A} (enc : A -> res tlv) (w : A -> list Z) (a : A) : Prop :=
  exists t, enc a = Ok t /\ tlv_wire t = w a /\ bytes_ok (w a).
Definition ob (o : option bytes) : bytes := match o with Some b => b | None => [] end.
Lemma flatten_ob x l : flatten (x :: l) = ob x ++ flatten l.
Proof. destruct x; reflexivity. Qed.

Lemma can_make {A} ty (enc : A -> res tlv) a b : 0 <= ty < 65536 -> bytes_ok b -> zlen b < 65536 ->
  enc a = tlv_make ty b -> exists t, enc a = Ok t /\ tlv_wire t = frame ty b /\ bytes_ok (frame ty b).
Proof.
  intros H1 H2 H3 E. assert (tlv_ok (mkTlv ty b)) as K by (split; [exact H1|split; [exact H3|exact H2]]).
  rewrite E. exists (mkTlv ty b). split; [apply tlv_make_intro; exact K|]. pose proof (proj2 (tlv_wire_ok _) K) as B.
  rewrite frame_wire in *. split; [reflexivity|exact B].
Qed.
Lemma can_opt {A} (enc : A -> res tlv) w o : opt_all (can enc w) o ->
  exists x, wire_opt enc o = Ok x /\ ob x = opt_bytes w o /\ bytes_ok (opt_bytes w o).
Proof.
  intros H. destruct o as [a|].
  - destruct (H a eq_refl) as (t & E & W & B). cbn [wire_opt opt_bytes]. rewrite E. cbn [bind]. eexists. split; [reflexivity|].
    split; [exact W|exact B].
  - exists None. repeat split; constructor.
Qed.
Lemma can_list {A} (enc : A -> res tlv) w l : Forall (can enc w) l ->
  exists ts, mapM enc l = Ok ts /\ wires ts = flat_map w l /\ bytes_ok (flat_map w l).
Proof.
  induction 1 as [|a l (t & E & W & B) _ (ts & Es & Ws & Bs)]; [exists []; repeat split; constructor|].
  exists (t :: ts). cbn [mapM flat_map]. rewrite E. cbn [bind]. rewrite Es. split; [reflexivity|].
  rewrite wires_cons, W, Ws. split; [reflexivity|]. apply bytes_ok_app. auto.
Qed.
Lemma zlen_opt {A} (w : A -> list Z) o a : o = Some a -> zlen (opt_bytes w o) = zlen (w a).
Proof. intros ->. reflexivity. Qed.
Lemma zlen_in {A} (w : A -> list Z) l a : In a l -> zlen (w a) <= zlen (flat_map w l).
Proof.
  induction l as [|b l IH]; [intros []|]. cbn [flat_map]. rewrite zlen_app.
  pose proof (zlen_nonneg (w b)). pose proof (zlen_nonneg (flat_map w l)). intros [->|H']; [lia|]. apply IH in H'. lia.
Qed.
(* lengths of all parts in sight are not negative *)
Ltac known x := match goal with K : 0 <= zlen x |- _ => idtac end.
Ltac pos H := rewrite ?zlen_frame, ?zlen_app in H;
  repeat match type of H with context [@zlen _ ?x] => tryif known x then fail else (let P := fresh "Pz" in pose proof (zlen_nonneg x) as P) end.
Lemma opt_all_size {A} (Q : A -> Prop) (w : A -> list Z) (enc : A -> res tlv) o n :
  (forall a, Q a -> zlen (w a) < n -> can enc w a) -> opt_all Q o -> zlen (opt_bytes w o) < n -> opt_all (can enc w) o.
Proof. intros H HQ HL a ->. apply H; [apply HQ; reflexivity|exact HL]. Qed.
Lemma list_size {A} (Q : A -> Prop) (w : A -> list Z) (enc : A -> res tlv) l n :
  (forall a, Q a -> zlen (w a) < n -> can enc w a) -> Forall Q l -> zlen (flat_map w l) < n -> Forall (can enc w) l.
Proof.
  intros H HQ HL. rewrite Forall_forall in *. intros a Ha. apply H; [auto|]. pose proof (zlen_in w l a Ha). lia.
Qed.

Lemma can_hash h : hash_ok h -> can hashv_tlv w_hash h.
Proof.
  intros (H1 & H2 & H3). apply (can_make (h_alg h) hashv_tlv h (h_val h)); [exact H1|apply all_bytes_ok; exact H3| |reflexivity].
  unfold zlen. exact H2.
Qed.
Lemma can_hash_in ty h : 0 <= ty < 65536 -> hash_ok h -> zlen (w_hash_in ty h) < 65540 -> can (htt_tlv ty) (w_hash_in ty) h.
Proof.
  intros Ht Hh Hl. unfold w_hash_in in Hl. pos Hl. destruct (can_hash h Hh) as (t & E & W & B).
  apply (can_make ty (htt_tlv ty) h (w_hash h)); [exact Ht|exact B|lia|]. unfold htt_tlv. rewrite E. cbn [bind]. rewrite W. reflexivity.
Qed.
Lemma can_int ty n : 0 <= ty < 65536 -> u64 n -> can (int_tlv ty) (uint_frame ty) n.
Proof.
  intros Ht Hn. destruct (int_tlv_intro ty n Ht (proj1 Hn)) as [t E]. exists t. split; [exact E|].
  pose proof (int_wire ty n t (proj2 Hn) E) as W. split; [exact W|]. rewrite <- W. apply tlv_wire_ok. eapply int_tlv_ok; exact E.
Qed.
Lemma can_octet ty b : 0 <= ty < 65536 -> all_bytes b -> zlen (frame ty b) < 65540 -> can (octet_tlv ty) (frame ty) b.
Proof. intros Ht Hb Hl. pos Hl. apply (can_make ty (octet_tlv ty) b b); [exact Ht|apply all_bytes_ok; exact Hb|lia|reflexivity]. Qed.
Lemma can_name n : name_ok n -> zlen (w_name n) < 65540 -> can name_tlv w_name n.
Proof.
  intros Hn Hl. unfold w_name in Hl. pos Hl.
  destruct (can_list comp_tlv (fun c => frame (c_type c) (c_val c)) n) as (ts & E & W & B).
  { eapply Forall_impl; [|exact Hn]. intros c (H1 & H2 & H3).
    apply (can_make (c_type c) comp_tlv c (c_val c)); [exact H1|apply all_bytes_ok; exact H3|unfold zlen; exact H2|reflexivity]. }
  apply (can_make 0 name_tlv n (flat_map (fun c => frame (c_type c) (c_val c)) n)); [lia|exact B|lia|].
  unfold name_tlv. rewrite E. cbn [bind]. change concat_wires with wires. rewrite W. reflexivity.
Qed.
(* the parts of an object in the order of its encoder *)
Ltac part H := let x := fresh "x" in let E := fresh "E" in let W := fresh "W" in let B := fresh "B" in destruct H as (x & E & W & B).
Ltac po enc w o L H := let K := fresh "K" in
  assert (opt_all (can enc w) o) as K by (apply (opt_all_size _ w enc o 65540 L H); lia); part (can_opt enc w o K); clear K.
Ltac pl enc w l L H := let K := fresh "K" in
  assert (Forall (can enc w) l) as K by (apply (list_size _ w enc l 65540 L H); lia); part (can_list enc w l K); clear K.
Lemma can_link l : link_ok l -> zlen (w_link l) < 65540 -> exists w, link_wire l = Ok w /\ w = w_link l /\ bytes_ok w.
Proof.
  intros (H1 & H2 & H3) Hl. unfold w_link in Hl. pos Hl.
  po name_tlv w_name (l_name l) can_name H1.
  po (htt_tlv 2) (w_hash_in 2) (l_keyid l) (fun a => can_hash_in 2 a ltac:(lia)) H2.
  po (htt_tlv 3) (w_hash_in 3) (l_digest l) (fun a => can_hash_in 3 a ltac:(lia)) H3.
  unfold link_wire. rewrite E. cbn [bind]. unfold T_KEYIDRESTR, T_OBJHASHRESTR. rewrite E0. cbn [bind]. rewrite E1. cbn [bind].
  eexists. split; [reflexivity|]. rewrite !flatten_ob, W, W0, W1. cbn [flatten]. rewrite app_nil_r. split; [reflexivity|].
  rewrite !bytes_ok_app. auto.
Qed.
Definition w_locator (l : link) : list Z := frame 0x000D (w_link l).
Lemma can_locator l : link_ok l /\ l_name l <> None -> zlen (w_locator l) < 65540 -> can loc_tlv w_locator l.
Proof.
  intros (H1 & H2) Hl. unfold w_locator in Hl. pos Hl. destruct (can_link l H1 ltac:(lia)) as (w & E & -> & B).
  apply (can_make 13 loc_tlv l (w_link l)); [lia|exact B|lia|]. unfold loc_tlv. destruct (l_name l); [|congruence]. cbn [is_none negb guard bind].
  rewrite E. reflexivity.
Qed.
Lemma can_keylink l : link_ok l -> zlen (frame 14 (w_link l)) < 65540 -> can keylink_tlv (fun l => frame 14 (w_link l)) l.
Proof.
  intros H1 Hl. pos Hl. destruct (can_link l H1 ltac:(lia)) as (w & E & -> & B).
  apply (can_make 14 keylink_tlv l (w_link l)); [lia|exact B|lia|]. unfold keylink_tlv. rewrite E. reflexivity.
Qed.
Lemma can_locators ls : locators_ok ls -> zlen (w_locators ls) < 65540 -> can locs_tlv w_locators ls.
Proof.
  intros (H1 & H2) Hl. change (w_locators ls) with (frame 6 (flat_map w_locator ls)) in Hl. pos Hl.
  pl loc_tlv w_locator ls can_locator H2.
  apply (can_make 6 locs_tlv ls (flat_map w_locator ls)); [lia|exact B|lia|].
  unfold locs_tlv. replace (zlen ls =? 0) with false by (destruct ls; [congruence|rewrite zlen_cons; pose proof (zlen_nonneg ls); lia]).
  cbn [negb guard bind]. rewrite E. cbn [bind]. change concat_wires with wires. rewrite W. reflexivity.
Qed.
Lemma can_suffix k : 0 <= k < 65536 -> can suffix_tlv (fun k => frame 2 (be_bytes 2 k)) k.
Proof.
  intros Hk. destruct (C05_uint16 k) as [H _]. destruct (H Hk) as (a & Ea & La & _).
  assert (suffix_tlv k = tlv_make 2 a) as E.
  { unfold suffix_tlv. replace ((0 <=? k) && (k <=? 65535)) with true by lia. cbn [guard bind]. unfold create_uint16.
    replace ((0 <=? k) && (k <=? 65535)) with true by lia. cbn [guard bind]. rewrite Ea. reflexivity. }
  assert (bytes_ok a) as B. { unfold uint16_to_array in Ea. mon. apply array_B_ok in Ea as [? ->]. assumption. }
  destruct (can_make 2 suffix_tlv k a ltac:(lia) B ltac:(lia) E) as (t & Et & W & Bt).
  exists t. pose proof (suffix_wire _ _ Et) as W'. split; [exact Et|]. split; [exact W'|]. rewrite <- W', W. exact Bt.
Qed.
Lemma can_schema s : schema_ok s -> zlen (w_schema s) < 65540 -> can schema_tlv w_schema s.
Proof.
  destruct s as [ls fl|n ls fl|n x ls fl]; cbn [schema_ok w_schema]; intros H Hl; pos Hl.
  - destruct H as (H1 & ->).
    po locs_tlv w_locators ls can_locators H1.
    eapply (can_make 16 schema_tlv (SHash ls None)); [lia|exact B|lia|]. cbn [schema_tlv is_none guard bind]. rewrite E. cbn [bind].
    rewrite flatten_ob, W. cbn [flatten]. rewrite app_nil_r. reflexivity.
  - destruct H as (H1 & H2 & ->).
    po name_tlv w_name n can_name H1.
    po locs_tlv w_locators ls can_locators H2.
    eapply (can_make 17 schema_tlv (SPrefix n ls None)); [lia|apply bytes_ok_app; split; [exact B|exact B0]|rewrite zlen_app; lia|].
    cbn [schema_tlv is_none guard bind]. rewrite E. cbn [bind]. rewrite E0. cbn [bind].
    rewrite !flatten_ob, W, W0. cbn [flatten]. rewrite app_nil_r. reflexivity.
  - destruct H as (H1 & H2 & H3 & ->).
    po name_tlv w_name n can_name H1.
    part (can_opt suffix_tlv (fun k => frame 2 (be_bytes 2 k)) x ltac:(intros k Hk; apply can_suffix; auto)).
    po locs_tlv w_locators ls can_locators H3.
    eapply (can_make 18 schema_tlv (SSeg n x ls None)); [lia|rewrite !bytes_ok_app; split; [exact B|split; [exact B0|exact B1]]|rewrite !zlen_app; lia|].
    cbn [schema_tlv is_none guard bind]. rewrite E. cbn [bind]. rewrite E0. cbn [bind]. rewrite E1. cbn [bind].
    rewrite !flatten_ob, W, W0, W1. cbn [flatten]. rewrite app_nil_r. reflexivity.
Qed.
Lemma opt_int ty o : 0 <= ty < 65536 -> opt_all u64 o -> opt_all (can (int_tlv ty) (uint_frame ty)) o.
Proof. intros Ht H a Ha. apply can_int; auto. Qed.
Lemma can_ncdef d : ncdef_ok d -> zlen (w_ncdef d) < 65540 -> can ncdef_tlv w_ncdef d.
Proof.
  intros (H1 & H2) Hl. unfold w_ncdef in Hl. pos Hl.
  part (can_opt (int_tlv 5) (uint_frame 5) (nd_id d) (opt_int 5 _ ltac:(lia) H1)).
  po schema_tlv w_schema (nd_schema d) can_schema H2.
  eapply (can_make 4 ncdef_tlv d); [lia|apply bytes_ok_app; split; [exact B|exact B0]|rewrite zlen_app; lia|].
  unfold ncdef_tlv, T_NCID. rewrite E. cbn [bind]. rewrite E0. cbn [bind]. rewrite !flatten_ob, W, W0. cbn [flatten]. rewrite app_nil_r. reflexivity.
Qed.
Lemma can_vendor v : vendor_ok v -> zlen (w_vendor v) < 65540 -> can vendor_tlv w_vendor v.
Proof.
  intros (H1 & H2) Hl. unfold w_vendor in Hl. pos Hl. change (zlen (be_bytes 3 (v_pen v))) with 3 in Hl.
  destruct (C05_uint24 (v_pen v)) as [H _]. destruct (H H1) as (a & Ea & La & _).
  assert (bytes_ok a) as Ba. { unfold uint24_to_array in Ea. mon. apply array_B_ok in Ea as [? ->]. assumption. }
  assert (vendor_tlv v = tlv_make 0x0FFF (a ++ v_payload v)) as E.
  { unfold vendor_tlv. change (2 ^ 24) with 16777216 in H1. replace ((0 <=? v_pen v) && (v_pen v <=? 16777215)) with true by lia. cbn [guard bind].
    rewrite Ea. cbn [bind]. rewrite (array_B_intro (v_payload v)) by (apply all_bytes_ok; exact H2). reflexivity. }
  destruct (can_make 0x0FFF vendor_tlv v (a ++ v_payload v) ltac:(lia)) as (t & Et & W & Bt); [rewrite bytes_ok_app; split; [exact Ba|apply all_bytes_ok; exact H2]|rewrite zlen_app; lia|exact E|].
  exists t. pose proof (vendor_wire _ _ Et) as W'. split; [exact Et|]. split; [exact W'|]. rewrite <- W', W. exact Bt.
Qed.

Lemma can_node_data d : node_data_ok d -> zlen (w_node_data d) < 65540 -> can nd_tlv w_node_data d.
Proof.
  intros (H1 & H2 & H3 & H4 & H5) Hl. unfold w_node_data in Hl. pos Hl.
  part (can_opt (int_tlv 2) (uint_frame 2) (nd_size d) (opt_int 2 _ ltac:(lia) H1)).
  po (htt_tlv 3) (w_hash_in 3) (nd_digest d) (fun a => can_hash_in 3 a ltac:(lia)) H2.
  po locs_tlv w_locators (nd_locators d) can_locators H3.
  pl ncdef_tlv w_ncdef (nd_ncdefs d) can_ncdef H5.
  pl vendor_tlv w_vendor (nd_vendors d) can_vendor H4.
  eapply (can_make 0 nd_tlv d); [lia| | |].
  2: { rewrite !zlen_app. lia. }
  { rewrite !bytes_ok_app. auto 6. }
  unfold nd_tlv, T_SUBTREE_SIZE, T_SUBTREE_DIGEST. rewrite E. cbn [bind]. rewrite E0. cbn [bind]. rewrite E1. cbn [bind].
  rewrite E2. cbn [bind]. rewrite E3. cbn [bind]. change concat_wires with wires. rewrite !flatten_ob, W, W0, W1. cbn [flatten ob].
  rewrite W2, W3, app_nil_r. reflexivity.
Qed.
Lemma can_group h : group_ok h -> zlen (w_hash_group h) < 65540 -> can hg_tlv w_hash_group h.
Proof.
  intros (H1 & H2) Hl.
  assert (V : hg_valid h).
  { split; [|exact H2]. intros g Eg. destruct (H1 g Eg) as (A & B & C & D & E & F).
    unfold opt_all, u64 in *. refine (conj _ (conj B (conj _ (conj D (conj _ _))))); intros n K;
    [apply A in K|apply C in K|apply E in K|apply F in K]; lia. }
  assert (W : hg_wf h).
  { intros g Eg. destruct (H1 g Eg) as (A & B & C & D & E & F). unfold gd_wf, u64o, opt_all, u64 in *.
    repeat split; intros n K; [apply A in K|apply C in K|apply E in K|apply F in K]; lia. }
  destruct (hg_exists h V W Hl) as (t & E). exists t. pose proof (hg_wire h t W E) as X. split; [exact E|]. split; [exact X|].
  rewrite <- X. apply tlv_wire_ok. eapply hg_tlv_tlv_ok; exact E.
Qed.
Lemma can_node n : node_ok n -> n_pad n = None -> zlen (w_node n) < 65540 -> can node_tlv w_node n.
Proof.
  intros (H1 & H2 & H3) Hp Hl. unfold w_node, w_node_body in Hl. rewrite Hp in Hl. cbn [opt_bytes] in Hl. rewrite app_nil_r in Hl. pos Hl.
  po nd_tlv w_node_data (n_data n) can_node_data H1.
  pl hg_tlv w_hash_group (n_groups n) can_group H3.
  unfold can. replace (w_node n) with (frame 1 (opt_bytes w_node_data (n_data n) ++ flat_map w_hash_group (n_groups n)))
    by (unfold w_node, w_node_body; rewrite Hp; cbn [opt_bytes]; rewrite app_nil_r; reflexivity).
  eapply (can_make 1 node_tlv n); [lia|apply bytes_ok_app; auto|rewrite zlen_app; lia|].
  unfold node_tlv, node_value. rewrite E, Hp. cbn [bind]. rewrite E0. cbn [bind].
  replace (zlen (n_groups n) =? 0) with false by (destruct (n_groups n); [congruence|rewrite zlen_cons; pose proof (zlen_nonneg l); lia]).
  cbn [negb guard bind]. change concat_wires with wires. rewrite !flatten_ob, W. cbn [flatten ob]. rewrite W0, app_nil_r. reflexivity.
Qed.
(* with padding: the target must itself fit *)
Lemma can_padded n : node_ok n -> zlen (frame 1 (w_node_body n)) < 65540 -> opt_all (fun p => p < 65540) (n_pad n) ->
  exists t, node_tlv n = Ok t.
Proof.
  intros Hn Hl Hp. destruct n as [d gs p]. destruct (can_node (mkNode d gs None) Hn eq_refl) as (t & E & _).
  { unfold w_node. cbn [n_pad opt_bytes]. rewrite app_nil_r. exact Hl. }
  destruct p as [p|]; [|eauto]. eapply C17_padding_exists; [exact E|]. apply Hp. reflexivity.
Qed.
Lemma can_kdf k : kdf_ok k -> zlen (w_kdf k) < 65540 -> can kdf_tlv w_kdf k.
Proof.
  intros (H1 & H2) Hl. unfold w_kdf in Hl. pos Hl.
  destruct (can_int 6 (k_alg k) ltac:(lia) H1) as (x & E & W & B).
  po (octet_tlv 7) (frame 7) (k_info k) (fun b => can_octet 7 b ltac:(lia)) H2.
  eapply (can_make 5 kdf_tlv k); [lia|apply bytes_ok_app; auto|rewrite zlen_app; lia|].
  unfold kdf_tlv, T_KDF_ALG, T_KDF_INFO. rewrite E. cbn [bind]. rewrite E0. cbn [bind]. rewrite !flatten_ob. cbn [ob flatten].
  rewrite W, W0, app_nil_r. reflexivity.
Qed.
Lemma can_aead a : aead_ok a -> zlen (w_aead a) < 65540 -> aead_wire a = Ok (w_aead a) /\ bytes_ok (w_aead a).
Proof.
  intros (H1 & H2 & H3 & H4) Hl. unfold w_aead in Hl. rewrite !zlen_app in Hl. 
  pose proof (zlen_nonneg (uint_frame 0 (a_keynum a))). pose proof (zlen_nonneg (frame 1 (a_nonce a))).
  pose proof (zlen_nonneg (opt_bytes (uint_frame 2) (a_mode a))). pose proof (zlen_nonneg (opt_bytes w_kdf (a_kdf a))).
  destruct (can_int 0 (a_keynum a) ltac:(lia) H1) as (x & E & W & B).
  destruct (can_octet 1 (a_nonce a) ltac:(lia) H2 ltac:(lia)) as (x0 & E0 & W0 & B0).
  part (can_opt (int_tlv 2) (uint_frame 2) (a_mode a) (opt_int 2 _ ltac:(lia) H3)).
  po kdf_tlv w_kdf (a_kdf a) can_kdf H4.
  unfold aead_wire, T_KEYNUM, T_NONCE, T_AEADMode. rewrite E. cbn [bind]. rewrite E0. cbn [bind]. rewrite E1. cbn [bind]. rewrite E2. cbn [bind].
  rewrite !flatten_ob. cbn [ob flatten]. rewrite W, W0, W1, W2, app_nil_r. split; [reflexivity|].
  unfold w_aead. rewrite !bytes_ok_app. auto.
Qed.
Lemma can_wrapper a : wrapper_ok a -> zlen (w_wrapper a) < 65540 -> wrapper_wire a = Ok (w_wrapper a) /\ bytes_ok (w_wrapper a).
Proof.
  intros (H1 & H2 & H3 & H4) Hl. unfold w_wrapper in Hl. rewrite !zlen_app in Hl.
  pose proof (zlen_nonneg (w_hash_in 9 (w_keyid a))). pose proof (zlen_nonneg (opt_bytes (fun l => frame 14 (w_link l)) (w_keylink a))).
  pose proof (zlen_nonneg (opt_bytes (uint_frame 3) (w_hashalg a))). pose proof (zlen_nonneg (opt_bytes (frame 4) (w_key a))).
  destruct (can_hash_in 9 (w_keyid a) ltac:(lia) H1 ltac:(lia)) as (x & E & W & B).
  po keylink_tlv (fun l => frame 14 (w_link l)) (w_keylink a) can_keylink H2.
  part (can_opt (int_tlv 3) (uint_frame 3) (w_hashalg a) (opt_int 3 _ ltac:(lia) H3)).
  po (octet_tlv 4) (frame 4) (w_key a) (fun b => can_octet 4 b ltac:(lia)) H4.
  unfold wrapper_wire, T_KEYID, T_HASH_ALG, T_WRAPPED_KEY. rewrite E. cbn [bind]. rewrite E0. cbn [bind]. rewrite E1. cbn [bind]. rewrite E2. cbn [bind].
  rewrite !flatten_ob. cbn [ob flatten]. rewrite W, W0, W1, W2, app_nil_r. split; [reflexivity|].
  unfold w_wrapper. rewrite !bytes_ok_app. auto.
Qed.
Lemma make_frame ty b : 0 <= ty < 65536 -> bytes_ok b -> zlen b < 65536 -> exists t, tlv_make ty b = Ok t /\ tlv_wire t = frame ty b /\ bytes_ok (frame ty b).
Proof. intros. apply (can_make ty (tlv_make ty) b b); auto. Qed.
Lemma can_ctx c : ctx_ok c -> zlen (w_ctx c) < 65540 -> can ctx_tlv w_ctx c.
Proof.
  destruct c as [a|a w]; cbn [ctx_ok w_ctx]; intros H Hl.
  - rewrite !zlen_frame in Hl. pose proof (zlen_nonneg (w_aead a)). destruct (can_aead a H ltac:(lia)) as (E & B).
    destruct (make_frame 0 (w_aead a) ltac:(lia) B ltac:(lia)) as (i & Ei & Wi & Bi).
    eapply (can_make 0 ctx_tlv (CAead a)); [lia|exact Bi|rewrite zlen_frame; lia|].
    cbn [ctx_tlv]. rewrite E. cbn [bind]. unfold T_AEAD_CTX. rewrite Ei. cbn [bind]. rewrite Wi. reflexivity.
  - destruct H as (H1 & H2). rewrite !zlen_frame, zlen_app in Hl. pose proof (zlen_nonneg (w_aead a)). pose proof (zlen_nonneg (opt_bytes w_wrapper w)).
    destruct (can_aead a H1 ltac:(lia)) as (E & B).
    assert (exists x, optM wrapper_wire w = Ok x /\ ob x = opt_bytes w_wrapper w /\ bytes_ok (opt_bytes w_wrapper w)) as (x & Ex & Ox & Bx).
    { destruct w as [w|]; [|exists None; repeat split; constructor]. cbn [opt_bytes] in *.
      destruct (can_wrapper w (H2 w eq_refl) ltac:(lia)) as (Ew & Bw). exists (Some (w_wrapper w)). cbn [optM]. rewrite Ew. auto. }
    destruct (make_frame 1 (w_aead a ++ opt_bytes w_wrapper w) ltac:(lia)) as (i & Ei & Wi & Bi); [apply bytes_ok_app; auto|rewrite zlen_app; lia|].
    eapply (can_make 0 ctx_tlv (CRsa a w)); [lia|exact Bi|rewrite zlen_frame, zlen_app; lia|].
    cbn [ctx_tlv]. rewrite E. cbn [bind]. rewrite Ex. cbn [bind]. rewrite !flatten_ob. cbn [ob flatten]. rewrite Ox, app_nil_r.
    unfold T_RSAOAEP_CTX. rewrite Ei. cbn [bind]. rewrite Wi. reflexivity.
Qed.
Definition w_mnode (n : mnode) : list Z := match n with MNode n => w_node n | MEnc b => frame 0x0002 b end.
Definition mnode_ok (n : mnode) : Prop := match n with MNode n => node_ok n /\ n_pad n = None | MEnc b => all_bytes b end.
Lemma can_mnode n : mnode_ok n -> zlen (w_mnode n) < 65540 -> can mnode_tlv w_mnode n.
Proof.
  destruct n as [n|b]; cbn [mnode_ok w_mnode]; intros H Hl.
  - destruct H as (H1 & H2). exact (can_node n H1 H2 Hl).
  - exact (can_octet 2 b ltac:(lia) H Hl).
Qed.
Lemma can_manifest m : manifest_ok m -> (forall n, m_node m = MNode n -> n_pad n = None) -> zlen (w_manifest m) < 65540 ->
  man_wire m = Ok (w_manifest m) /\ bytes_ok (w_manifest m).
Proof.
  intros (H1 & H2 & H3) Hp Hl. unfold w_manifest in Hl. fold (w_mnode (m_node m)) in Hl. rewrite !zlen_app in Hl.
  pose proof (zlen_nonneg (opt_bytes w_ctx (m_ctx m))). pose proof (zlen_nonneg (w_mnode (m_node m))). pose proof (zlen_nonneg (opt_bytes (frame 3) (m_tag m))).
  po ctx_tlv w_ctx (m_ctx m) can_ctx H1.
  assert (mnode_ok (m_node m)) as Hm. { unfold mnode_ok. destruct (m_node m); [split; [exact H2|apply Hp; reflexivity]|exact H2]. }
  destruct (can_mnode _ Hm ltac:(lia)) as (x0 & E0 & W0 & B0).
  po (octet_tlv 3) (frame 3) (m_tag m) (fun b => can_octet 3 b ltac:(lia)) H3.
  unfold man_wire, T_AUTH_TAG. rewrite E. cbn [bind]. rewrite E0. cbn [bind]. rewrite E1. cbn [bind]. rewrite !flatten_ob. cbn [ob flatten].
  rewrite W, W0, W1, app_nil_r. split; [reflexivity|]. unfold w_manifest. fold (w_mnode (m_node m)). rewrite !bytes_ok_app. auto.
Qed.
Lemma can_ts ty f m : 0 <= ty < 65536 -> ts_msec f = Ok m -> 0 <= m < 2 ^ 64 -> exists t, ts_tlv ty f = Ok t /\ tlv_wire t = frame ty (be_bytes 8 m) /\ bytes_ok (frame ty (be_bytes 8 m)).
Proof.
  intros Ht Hm Hr. assert (exists t, ts_tlv ty f = Ok t) as (t & E).
  { unfold ts_tlv. rewrite Hm. cbn [bind]. destruct (C05_uint64 m) as (a & Ea & La & _). unfold create_uint64. rewrite Ea. cbn [bind].
    exists (mkTlv ty a). apply tlv_make_intro. split; [exact Ht|]. cbn [t_val]. unfold tlv_length. cbn [t_val]. split; [lia|]. apply uint64_ok in Ea. apply Ea. }
  exists t. pose proof (ts_wire ty f m t Hm Hr E) as W. split; [exact E|]. split; [exact W|]. rewrite <- W. apply tlv_wire_ok.
  apply ts_tlv_ok in E. apply E.
Qed.
Lemma can_ptype p : 0 <= p < 256 -> can ptype_tlv (fun p => frame 5 [p]) p.
Proof.
  intros Hp. destruct (C05_uint8 5 p ltac:(lia)) as [H _]. destruct (H Hp) as (t & E & _).
  exists t. pose proof (ptype_wire p t E) as W. split; [exact E|]. split; [exact W|]. rewrite <- W. apply tlv_wire_ok. eapply ptype_tlv_tlv_ok; exact E.
Qed.
Lemma can_content c ms : content_ok c ms ->
  zlen (w_content (co_name c) ms (co_ptype c) (co_payload c) (co_fcid c)) < 65540 ->
  exists t, co_tlv c = Ok t /\ tlv_wire t = w_content (co_name c) ms (co_ptype c) (co_payload c) (co_fcid c).
Proof.
  intros (H1 & H2 & H3 & H4 & H5) Hl. unfold w_content in Hl. rewrite zlen_frame, !zlen_app in Hl.
  set (we := opt_bytes (fun m => frame 6 (be_bytes 8 m)) ms) in *.
  pose proof (zlen_nonneg (opt_bytes w_name (co_name c))). pose proof (zlen_nonneg we).
  pose proof (zlen_nonneg (opt_bytes (fun p => frame 5 [p]) (co_ptype c))). pose proof (zlen_nonneg (opt_bytes (frame 1) (co_payload c))).
  pose proof (zlen_nonneg (opt_bytes (uint_frame 7) (co_fcid c))).
  po name_tlv w_name (co_name c) can_name H1.
  assert (exists x, wire_opt (ts_tlv 6) (co_expiry c) = Ok x /\ ob x = we /\ bytes_ok we) as (x0 & E0 & W0 & B0).
  { unfold we. destruct (co_expiry c) as [f|], ms as [m|]; try contradiction H4.
    - destruct H4 as (Hm & Hr). destruct (can_ts 6 f m ltac:(lia) Hm Hr) as (t & E' & W' & B'). exists (Some (tlv_wire t)).
      cbn [wire_opt opt_bytes ob]. rewrite E'. auto.
    - exists None. repeat split; constructor. }
  part (can_opt ptype_tlv (fun p => frame 5 [p]) (co_ptype c) ltac:(intros p Hp; apply can_ptype; auto)).
  po payload_tlv (frame 1) (co_payload c) (fun b => can_octet 1 b ltac:(lia)) H3.
  part (can_opt fcid_tlv (uint_frame 7) (co_fcid c) (opt_int 7 _ ltac:(lia) H5)).
  destruct (can_make 2 co_tlv c (opt_bytes w_name (co_name c) ++ we ++ opt_bytes (fun p => frame 5 [p]) (co_ptype c) ++
     opt_bytes (frame 1) (co_payload c) ++ opt_bytes (uint_frame 7) (co_fcid c)) ltac:(lia)) as (t & Et & Wt & _).
  { rewrite !bytes_ok_app. auto 6. }
  { rewrite !zlen_app. lia. }
  { unfold co_tlv, T_EXPIRY. rewrite E. cbn [bind]. rewrite E0. cbn [bind].
    rewrite E1. cbn [bind]. rewrite E2. cbn [bind]. rewrite E3. cbn [bind]. rewrite !flatten_ob. cbn [flatten]. rewrite W, W0, W1, W2, W3, app_nil_r. reflexivity. }
  exists t. split; [exact Et|]. exact Wt.
Qed.

(* ---------------- theorems ---------------- *)

Definition packet_fits (n : Z) : Prop := 8 + n < 65536.

(* every content object with fields in range, whichever of them are present,
   can be built if it fits *)
Theorem C08_exists : forall c ms, content_ok c ms ->
  zlen (w_content (co_name c) ms (co_ptype c) (co_payload c) (co_fcid c)) < 65540 ->
  exists t, co_tlv c = Ok t /\ tlv_wire t = w_content (co_name c) ms (co_ptype c) (co_payload c) (co_fcid c).
Proof. exact can_content. Qed.

Lemma hdr_fits n : 0 <= n -> 8 + n < 65536 -> exists h, hdr_serialize (hdr_content (8 + n)) = Ok h.
Proof.
  intros H1 H2. unfold hdr_serialize. cbn [hdr_content f_fields f_ver f_ptype f_plen f_hlen].
  assert ((is_byte 1 && is_byte PT_CONTENT && (0 <=? 8 + n) && (8 + n <? 65536) && is_byte 0 && is_byte 0 && is_byte 0 && is_byte 8) = true) as ->
    by (change (is_byte 1) with true; change (is_byte PT_CONTENT) with true; change (is_byte 0) with true; change (is_byte 8) with true; lia).
  cbn [guard bind]. eauto.
Qed.

(* and so can its packet, and the packet that carries it with a signature *)
Theorem C09_unsigned_exists : forall c ms, content_ok c ms ->
  packet_fits (zlen (w_content (co_name c) ms (co_ptype c) (co_payload c) (co_fcid c))) ->
  exists p w, create_content_object c = Ok p /\ packet_wire p = Ok w.
Proof.
  intros c ms H Hl. unfold packet_fits in Hl. destruct (can_content c ms H ltac:(lia)) as (t & E & W).
  assert (exists w, packet_wire (mkPkt (hdr_content (8 + tlv_len t)) (BCO c) None None) = Ok w) as (w & Ew).
  { rewrite <- W, zlen_tlv_wire in Hl. pose proof (zlen_nonneg (tlv_wire t)) as Hp. rewrite zlen_tlv_wire in Hp.
    destruct (hdr_fits (tlv_len t) Hp Hl) as (h & Eh).
    unfold packet_wire. cbn [p_hdr p_body p_alg p_vpl is_none Bool.eqb guard bind wire_opt body_wire]. rewrite Eh. cbn [bind]. rewrite E. cbn [bind]. eauto. }
  unfold create_content_object. rewrite E. cbn [bind]. rewrite Ew. cbn [bind]. eauto.
Qed.

(* validation algorithms with fields in range and the bytes they come to; the
   key itself cannot be embedded *)
Definition alg_ok (a : valg) (w : list Z) : Prop :=
  match a with
  | VCrc32c => w = w_alg_crc32c
  | VRsa kid pk kl st => hash_ok kid /\ pk = None /\ opt_all link_ok kl /\
      exists m, ts_msec st = Ok m /\ 0 <= m < 2 ^ 64 /\ w = w_alg_rsa kid kl m
  end.
Lemma can_alg a w : alg_ok a w -> zlen w < 65540 -> exists t, valg_tlv a = Ok t /\ tlv_wire t = w.
Proof.
  destruct a as [|kid pk kl st]; cbn [alg_ok].
  - intros -> _. eexists. split; vm_compute; reflexivity.
  - intros (H1 & -> & H2 & m & Hm & Hr & ->) Hl. unfold w_alg_rsa in Hl. rewrite !zlen_frame, !zlen_app in Hl.
    pose proof (zlen_nonneg (w_hash_in 9 kid)). pose proof (zlen_nonneg (opt_bytes (fun l => frame 14 (w_link l)) kl)).
    pose proof (zlen_nonneg (frame 15 (be_bytes 8 m))).
    destruct (can_hash_in 9 kid ltac:(lia) H1 ltac:(lia)) as (x & E & W & B).
    po keylink_tlv (fun l => frame 14 (w_link l)) kl can_keylink H2.
    destruct (can_ts 15 st m ltac:(lia) Hm Hr) as (x1 & E1 & W1 & B1).
    destruct (make_frame 4 (w_hash_in 9 kid ++ opt_bytes (fun l => frame 14 (w_link l)) kl ++ frame 15 (be_bytes 8 m)) ltac:(lia)) as (i & Ei & Wi & Bi).
    { rewrite !bytes_ok_app. auto. }
    { rewrite !zlen_app. lia. }
    destruct (make_frame 3 (tlv_wire i) ltac:(lia)) as (t & Et & Wt & _).
    { rewrite Wi. exact Bi. }
    { rewrite Wi, zlen_frame, !zlen_app. lia. }
    exists t. split.
    + cbn [valg_tlv]. unfold T_KEYID, T_SIGTIME, T_RSA_SHA256, T_VALIDATION_ALG. rewrite E. cbn [bind wire_opt]. rewrite E0. cbn [bind]. rewrite E1. cbn [bind].
      rewrite !flatten_ob. cbn [ob flatten app]. rewrite W, W0, W1, app_nil_r, Ei. cbn [bind]. exact Et.
    + rewrite Wt, Wi. reflexivity.
Qed.
Theorem C09_signed_exists : forall c ms a wa v, content_ok c ms -> alg_ok a wa -> all_bytes v ->
  packet_fits (zlen (w_content (co_name c) ms (co_ptype c) (co_payload c) (co_fcid c) ++ wa ++ w_val_payload v)) ->
  exists p w, create_signed_content_object c a v = Ok p /\ packet_wire p = Ok w.
Proof.
  intros c ms a wa v H Ha Hv Hl. unfold packet_fits in Hl. rewrite !zlen_app in Hl. unfold w_val_payload in Hl.
  set (wc := w_content (co_name c) ms (co_ptype c) (co_payload c) (co_fcid c)) in *.
  pose proof (zlen_nonneg wc). pose proof (zlen_nonneg wa). pose proof (zlen_nonneg (frame 4 v)).
  destruct (can_content c ms H) as (t & E & W). { fold wc. lia. } fold wc in W.
  destruct (can_alg a wa Ha ltac:(lia)) as (ta & Ea & Wa).
  destruct (make_frame 4 v ltac:(lia)) as (tv & Ev & Wv & _); [apply all_bytes_ok; exact Hv|rewrite zlen_frame in Hl; lia|].
  assert (exists w, packet_wire (mkPkt (hdr_content (8 + tlv_len t + tlv_len ta + tlv_len tv)) (BCO c) (Some a) (Some v)) = Ok w) as (w & Ew).
  { rewrite <- W, <- Wa, <- Wv, !zlen_tlv_wire in *.
    destruct (hdr_fits (tlv_len t + (tlv_len ta + tlv_len tv)) ltac:(lia) Hl) as (h & Eh).
    replace (8 + tlv_len t + tlv_len ta + tlv_len tv) with (8 + (tlv_len t + (tlv_len ta + tlv_len tv))) by lia.
    unfold packet_wire. cbn [p_hdr p_body p_alg p_vpl is_none Bool.eqb guard bind wire_opt body_wire]. rewrite Eh. cbn [bind]. rewrite E. cbn [bind].
    rewrite Ea. cbn [bind]. unfold vpl_tlv, T_VALIDATION_PAYLOAD. rewrite Ev. cbn [bind]. eauto. }
  unfold create_signed_content_object. rewrite E. cbn [bind]. rewrite Ea. cbn [bind]. unfold vpl_tlv, T_VALIDATION_PAYLOAD. rewrite Ev. cbn [bind]. cbn zeta.
  assert (forall q, packet_wire q = Ok w -> exists p w0, bind (packet_wire q) (fun _ => Ok q) = Ok p /\ packet_wire p = Ok w0) as K.
  { intros q Eq. rewrite Eq. cbn [bind]. eauto. }
  exact (K _ Ew).
Qed.

(* nodes with node data, padded or not, and manifests with every kind of
   security context *)
Theorem C15_exists : forall n, node_ok n -> zlen (frame 0x0001 (w_node_body n)) < 65540 ->
  opt_all (fun p => p < 65540) (n_pad n) -> exists t, node_tlv n = Ok t.
Proof. exact can_padded. Qed.
Theorem C15_node_data_exists : forall d, node_data_ok d -> zlen (w_node_data d) < 65540 ->
  exists t, nd_tlv d = Ok t.
Proof. intros d H Hl. destruct (can_node_data d H Hl) as (t & E & _). eauto. Qed.
Theorem C16_exists : forall m, manifest_ok m -> (forall n, m_node m = MNode n -> n_pad n = None) ->
  zlen (w_manifest m) < 65540 -> man_wire m = Ok (w_manifest m).
Proof. intros m H Hp Hl. apply can_manifest; assumption. Qed.
(* its packet *)
Theorem C16_packet_exists : forall m nm e ms, manifest_ok m -> (forall n, m_node m = MNode n -> n_pad n = None) ->
  opt_all name_ok nm -> opt_ms e ms ->
  packet_fits (zlen (w_content nm ms (Some PT_MANIFEST) (Some (w_manifest m)) None)) ->
  exists p w, man_packet m nm e = Ok p /\ packet_wire p = Ok w.
Proof.
  intros m nm e ms H Hp Hn He Hl.
  assert (zlen (w_manifest m) < 65536) as Hs.
  { unfold packet_fits, w_content in Hl. rewrite zlen_frame, !zlen_app in Hl. cbn [opt_bytes] in Hl. rewrite !zlen_frame in Hl.
    pose proof (zlen_nonneg (opt_bytes w_name nm)). pose proof (zlen_nonneg (opt_bytes (fun m => frame 6 (be_bytes 8 m)) ms)).
    change (zlen [PT_MANIFEST]) with 1 in Hl. change (zlen (@nil Z)) with 0 in Hl. lia. }
  destruct (can_manifest m H Hp ltac:(lia)) as (Em & Bm).
  set (c := mkCO nm (Some PT_MANIFEST) (Some (w_manifest m)) e None).
  assert (content_ok c ms) as Hc.
  { split; [exact Hn|]. split; [intros p [= <-]; unfold PT_MANIFEST; lia|]. split; [intros b [= <-]; apply all_bytes_ok; exact Bm|].
    split; [exact He|]. intros n [=]. }
  destruct (C09_unsigned_exists c ms Hc Hl) as (p & w & Ep & Ew).
  exists p, w. split; [|exact Ew]. unfold man_packet, man_content. rewrite Em. cbn [bind].
  unfold payload_tlv, octet_tlv. destruct (make_frame T_PAYLOAD (w_manifest m) ltac:(unfold T_PAYLOAD; lia) Bm Hs) as (tp & Et & _).
  rewrite Et. cbn [bind]. fold c. destruct (can_content c ms Hc) as (tc & Ec & _).
  { unfold packet_fits in Hl. cbn [c co_name co_ptype co_payload co_fcid]. lia. }
  assert (forall q, co_tlv q = Ok tc -> create_content_object q = Ok p ->
    bind (bind (co_tlv q) (fun _ => Ok q)) create_content_object = Ok p) as K.
  { intros q E1 E2. rewrite E1. cbn [bind]. exact E2. }
  exact (K c Ec Ep).
Qed.

(* the fields in range and the sizes are those of a real object *)
Lemma all_bytes_check l : forallb (fun b => (0 <=? b) && (b <? 256)) l = true -> all_bytes l.
Proof. intros H b Hb. rewrite forallb_forall in H. specialize (H b Hb). lia. Qed.
Ltac in_range := repeat match goal with
  | |- _ /\ _ => split
  | |- opt_all _ None => intros ? [=]
  | |- opt_all _ (Some _) => intros ? [= <-]
  | |- Forall _ [] => constructor
  | |- Forall _ (_ :: _) => constructor
  | |- all_bytes _ => apply all_bytes_check; reflexivity
  | |- hash_ok _ => unfold hash_ok, frameable; cbn [h_alg h_val]
  | |- frameable _ _ => unfold frameable; cbn [c_type c_val]
  | |- _ <= _ => vm_compute; discriminate
  | |- _ < _ => vm_compute; reflexivity
  | |- u64 _ => unfold u64
  | |- _ <> _ => discriminate
  end.
Lemma ex_name_ok : name_ok ex_name.
Proof. unfold name_ok, ex_name. in_range. Qed.
Lemma ex_link_ok : link_ok ex_link.
Proof. unfold link_ok, ex_link; cbn [l_name l_keyid l_digest]. in_range. exact ex_name_ok. Qed.
Lemma ex_locs_ok : locators_ok [ex_link] /\ locators_ok [ex_link; ex_link].
Proof. unfold locators_ok. in_range; try exact ex_link_ok. Qed.
Lemma ex_node_ok : node_ok ex_node.
Proof.
  unfold node_ok, ex_node; cbn [n_data n_groups]. in_range.
  - unfold node_data_ok, ex_nd; cbn [nd_size nd_digest nd_locators nd_vendors nd_ncdefs]. in_range; try apply ex_locs_ok;
    unfold vendor_ok, ncdef_ok; cbn [v_pen v_payload nd_id nd_schema]; in_range; cbn [schema_ok]; in_range; try apply ex_locs_ok; try exact ex_name_ok; reflexivity.
  - unfold group_ok, ex_hg; cbn [hg_data hg_ptrs]. in_range; unfold group_data_ok, ex_gd, ex_hashes;
    cbn [gd_subtree_size gd_subtree_digest gd_leaf_size gd_leaf_digest gd_nc_id gd_start]; in_range.
  - unfold group_ok; cbn [hg_data hg_ptrs]. in_range. unfold ex_hashes. in_range.
Qed.
Lemma ex_man_ok : manifest_ok ex_man.
Proof. unfold manifest_ok, ex_man; cbn [m_ctx m_node m_tag]. in_range. exact ex_node_ok. Qed.
Lemma ex_enc_ok : manifest_ok ex_man_enc.
Proof.
  unfold manifest_ok, ex_man_enc; cbn [m_ctx m_node m_tag]. in_range. unfold ctx_ok, ex_ctx, ex_aead. in_range.
  all: unfold aead_ok, wrapper_ok; cbn [a_keynum a_nonce a_mode a_kdf w_keyid w_keylink w_hashalg w_key]; in_range; try exact ex_link_ok.
  all: unfold kdf_ok; cbn [k_alg k_info]; in_range.
Qed.
Example C08_exists_ex : content_ok ex_co (Some 1570000000123) /\
  packet_fits (zlen (w_content (Some ex_name) (Some 1570000000123) (Some 0) (Some [1;2;3]) (Some 300) ++
    w_alg_rsa (mkHash 1 (repeat 7 32)) (Some ex_link) 1570000000123 ++ w_val_payload [1;2])) /\
  alg_ok (VRsa (mkHash 1 (repeat 7 32)) None (Some ex_link) (mkFl 6585057280515899 (-22)))
    (w_alg_rsa (mkHash 1 (repeat 7 32)) (Some ex_link) 1570000000123).
Proof.
  split; [|split].
  - unfold content_ok, ex_co; cbn [co_name co_ptype co_payload co_expiry co_fcid]. in_range; try exact ex_name_ok; try reflexivity.
    cbn [opt_ms]. split; [vm_compute; reflexivity|lia].
  - vm_compute. reflexivity.
  - cbn [alg_ok]. in_range; try reflexivity; try exact ex_link_ok. exists 1570000000123. split; [vm_compute; reflexivity|]. split; [lia|reflexivity].
Qed.
Example C15_exists_ex : node_ok ex_node /\ zlen (frame 0x0001 (w_node_body ex_node)) < 65540 /\ manifest_ok ex_man /\ manifest_ok ex_man_enc /\
  packet_fits (zlen (w_content (Some ex_name) None (Some PT_MANIFEST) (Some (w_manifest ex_man)) None)).
Proof.
  split; [exact ex_node_ok|]. split; [vm_compute; reflexivity|]. split; [exact ex_man_ok|]. split; [exact ex_enc_ok|]. vm_compute; reflexivity.
Qed.
Print Assumptions C08_exists.
Print Assumptions C09_unsigned_exists.
Print Assumptions C09_signed_exists.
Print Assumptions C15_exists.
Print Assumptions C15_node_data_exists.
Print Assumptions C16_exists.
Print Assumptions C16_packet_exists.
