(* C58: whole builds written to a directory and read back from it. *)
From Coq Require Import ZArith List Bool Lia ZifyBool.
From Verif Require Import Py Tlv Float Core TlvProofs CoreProofs PropsCore Flic FlicProofs Crypto CryptoProofs
  PropsCrypto Optimizer OptimizerProofs Tree TreeSpec TreeProofs TreeFacts PropsOptimizer PropsTree ChunkProofs SizeProofs
  PropsChunk BuildProofs Store StoreSpec StoreProofs PropsStore Traversal TraversalSpec TraversalProofs EndSpec EndProofs
  ReadProofs PropsEnd.
Import ListNotations.
Open Scope Z_scope.
Opaque tlv_make tlv_wire tlv_deserialize.

(* The times that go into the packets of the build are whole milliseconds that
   survive being sent (see C20 for which do). *)
Definition sent_times {P} (o : opts P) (now : fl) : Prop :=
  (forall f, op_dexp o = Some f \/ op_mexp o = Some f \/ op_rexp o = Some f -> wire_time f) /\
  (forall sk, op_signer o = Some (SRsa sk) -> wire_time now).

(* the fixed header of a packet the package makes follows from the rest *)
Lemma storable_hdr p w i : storable p -> packet_wire p = Ok w -> packet_hash_input p = Ok i ->
  p_hdr p = hdr_content (8 + zlen i).
Proof.
  intros (c & _ & Hc) Hw Hi. apply packet_wire_ok in Hw as (h & c' & b & l2 & l3 & _ & Hb & Ht & O2 & O3 & _ & _ & _ & Hi').
  rewrite Hi in Hi'. apply Ok_inj in Hi'. subst i. fold (wlen ([b] ++ l2 ++ l3)). rewrite !wlen_app, wlen_one.
  destruct Hc as [H|(a & v & _ & H)].
  - unfold create_content_object in H. inv_bind H. inv_bind H. apply Ok_inj in H. subst p. cbn [p_body p_alg p_vpl p_hdr opt_tlvs] in *.
    injection Hb as <-. subst l2 l3. assert (a = b) as -> by congruence. change (wlen []) with 0. f_equal. lia.
  - unfold create_signed_content_object in H. inv_bind H. inv_bind H. inv_bind H. inv_bind H. apply Ok_inj in H. subst p.
    cbn [p_body p_alg p_vpl p_hdr opt_tlvs] in *. injection Hb as <-.
    destruct O2 as (t2 & E2' & ->), O3 as (t3 & E3' & ->). rewrite !wlen_one.
    assert (a0 = b) as -> by congruence. assert (a1 = t2) as -> by congruence. assert (a2 = t3) as -> by congruence. f_equal. lia.
Qed.
Lemma storable_same p q w w' : storable p -> storable q -> packet_wire p = Ok w -> packet_wire q = Ok w' ->
  packet_hash_input p = packet_hash_input q -> packet_wire q = Ok w.
Proof.
  intros Sp Sq Hp Hq E. pose proof Hp as X. pose proof Hq as Y.
  apply packet_wire_ok in X as (h & c & b & l2 & l3 & Hh & _ & _ & _ & _ & _ & _ & -> & Hi).
  apply packet_wire_ok in Y as (h' & c' & b' & l2' & l3' & Hh' & _ & _ & _ & _ & _ & _ & -> & Hi').
  rewrite (storable_hdr _ _ _ Sp Hp Hi) in Hh. rewrite (storable_hdr _ _ _ Sq Hq Hi') in Hh'.
  rewrite Hi, Hi' in E. apply Ok_inj in E. rewrite E in *. assert (h = h') as -> by congruence. exact Hq.
Qed.

Section Dir.
Context (P : prims) (clog : Z -> Z -> Z -> Z) (rnd : nat -> bytes) (now : fl) (o : opts P) (nc : Z) (data : bytes)
  (HM : op_max o <= 2 ^ 24) (Hnc : nc + 1 < 2 ^ 64)
  (Ha : aead_correct P) (Ho : oaep_correct P) (Hsg : sig_correct P)
  (Hpl : plain_prefixes o) (Hpr : printable_locators o) (ks : option (keystore P)) (Heq : equipped o ks)
  (Hnm : plain_name (op_name o)) (Htm : sent_times o now).
Context (k k' : nat) (x : nctx) (ps : Z) (l : list bytes) (pkts : list packet) (meta : list cmeta) (num : Z) (r : optres)
  (SU : setup P clog rnd now o nc data k k' x ps l pkts meta num r)
  (out : list packet) (np : node * packet) (b : bst) (lv : nat) (t : tree) (RS : result P rnd now (env_of P o x meta r) out k' np b lv t)
  (k1 k2 : nat) (root : packet) (RP : root_packet P rnd now o x (zlen data) (mi_pkt (top t)) k1 = (Ok root, k2)).
Let new := pkts ++ map mi_pkt (infos t) ++ [root].

Lemma new_storable p : In p new -> storable p.
Proof.
  destruct Htm as (T1 & T2). intros Hp. apply in_app_iff in Hp as [Hp|Hp]; [|apply in_app_iff in Hp as [Hp|[<-|[]]]].
  - apply In_nth_error in Hp as [j Hj]. assert (L : (j < length pkts)%nat) by (apply nth_error_Some; congruence).
    pose proof (su_emits _ _ _ _ _ _ _ _ _ _ _ _ _ _ _ _ SU) as E. pose proof (emits_nth _ _ _ _ _ _ _ E) as (L1 & L2 & _).
    destruct (emits_at P o _ l pkts meta (Z.of_nat j) E) as (bb & q & _ & Eq & D); [unfold zlen; lia|].
    rewrite Nat2Z.id in Eq. assert (q = p) as -> by congruence.
    destruct D as (nm & w & h & Hn & Hb & Hal & (_ & Hcr) & _ & _ & _ & Hid & _).
    eexists. split; [|left; exact Hcr]. split; cbn [co_expiry co_fcid].
    + intros f Hf. apply T1. auto.
    + unfold final_id. intros n. unfold MAX_CHUNK_ID in Hid. destruct (im_schema _) as [| |? [ty|] ? ?]; try discriminate.
      destruct (_ && _); [|discriminate]. intros [= <-]. lia.
  - destruct (tree_kind P clog rnd now o nc data HM Hnc _ _ _ _ _ _ _ _ _ SU _ _ _ _ _ RS p Hp)
      as (u & _ & _ & (m & w & _ & _ & _ & _ & _ & (_ & Hcr) & _) & _).
    eexists. split; [|left; exact Hcr]. split; cbn [co_expiry co_fcid]; [|discriminate]. intros f Hf. apply T1. auto.
  - apply root_inv in RP as (h & m & w & _ & _ & _ & _ & Hcr & _). eexists. split.
    2:{ destruct (op_signer o) as [sg|] eqn:Es; [right|left; exact Hcr].
        apply sign_content_ok in Hcr as (a & tc & ta & v & Hal & _ & _ & _ & _ & _ & _ & Hcr). exists a, v. split; [|exact Hcr].
        destruct sg as [|sk]; cbn [signer_alg] in Hal.
        - inv_bind Hal. inv_bind Hal. inv_bind Hal. apply Ok_inj in Hal. subst a. exact I.
        - inv_bind Hal. inv_bind Hal. inv_bind Hal. apply Ok_inj in Hal. subst a. cbn [decodable_alg]. repeat split. apply (T2 sk). reflexivity. }
    split; cbn [co_expiry co_fcid]; [|discriminate]. intros f Hf. apply T1. auto.
Qed.

Lemma new_wire p : In p new -> exists w, packet_wire p = Ok w.
Proof.
  intros Hp. destruct (storable_wf p (new_storable p Hp)) as (w & _ & Hw). eauto.
Qed.

Context (uri_path : name -> res bytes) (dopt : dwopt P) (ds : dwriter) (Hflat : do_nested dopt = false) (NC : no_collisions P new) (later : fl).
Let get := dir_get uri_path later (dw_files (dir_puts P uri_path dopt new ds)).

Lemma dir_answer p h nm : In p new -> packet_hash (pr_sha P) p = Ok h -> get nm (Some h) = check_name nm (packet_norm p).
Proof.
  intros Hp Hh. destruct (new_wire p Hp) as (w & Hw). pose proof (new_storable p Hp) as Sp.
  destruct (in_split p new Hp) as (l1 & l2 & E). unfold get. rewrite E. eapply dir_get_stored; try eassumption.
  intros q Hq Hhq. assert (In q new) as Hq' by (rewrite E; apply in_app_iff; right; right; exact Hq).
  destruct (new_wire q Hq') as (w' & Hw'). exact (storable_same p q w w' Sp (new_storable q Hq') Hw Hw' (NC p q h Hp Hq' Hh Hhq)).
Qed.
Lemma dir_available p : In p new -> (forall n, body_name p = Some n -> Forall (fun c => c_kind c = KBytes) n) -> available get ks p.
Proof.
  intros Hp Hk h Hh. destruct (new_wire p Hp) as (w & Hw). exists (packet_norm p). split.
  - rewrite (dir_answer p h _ Hp Hh). eapply check_norm; [exact Hw|]. intros n c En. specialize (Hk n En). rewrite Forall_forall in Hk. apply Hk.
  - apply packet_wire_ok in Hw as (_ & c & _ & _ & _ & _ & Hb & _). exists c. eexists. split; [exact Hb|].
    split; [unfold packet_norm; cbn [p_body]; rewrite Hb; reflexivity|]. do 2 (split; [reflexivity|]). rewrite validate_norm.
    apply (new_ok P Hsg clog rnd now o nc data HM Hnc _ _ _ _ _ _ _ _ _ SU _ _ _ _ _ RS _ _ root RP ks (signer_known P o ks Heq) p Hp).
Qed.
Lemma root_available : available get ks root.
Proof.
  apply dir_available; [unfold new; rewrite !in_app_iff; right; right; now left|]. intros n En.
  pose proof RP as X. apply root_inv in X as (h & m & w & _ & _ & _ & _ & _ & Hb & _). unfold body_name in En. rewrite Hb in En. exact (Hnm n En).
Qed.
Lemma impl_plain i id nm : op_type o <> Segmented -> i = nx_man x \/ i = nx_data x -> impl_name i id = Ok nm -> plain_name nm.
Proof.
  intros Hty Hi H. pose proof (ctx_impls P o nc x (su_ctx _ _ _ _ _ _ _ _ _ _ _ _ _ _ _ _ SU) i Hi) as (_ & _ & M).
  unfold made_of in M. unfold plain_prefixes in Hpl. unfold impl_name in H. destruct (op_type o); [| |contradiction].
  - destruct M as (ls & E & _). rewrite E in H. apply Ok_inj in H. subst nm. intros m X. discriminate X.
  - destruct M as (n & E & Hn). rewrite E in H. apply Ok_inj in H. subst nm. destruct Hpl as (N1 & N2 & N3).
    destruct Hn as [<-|[<-|[<-|[]]]]; assumption.
Qed.
Lemma dir_reads : op_type o <> Segmented ->
  exists hr, packet_hash (pr_sha P) root = Ok hr /\ reads_back get ks (op_name o) hr (length new) data (zlen new).
Proof.
  intros Hty. destruct (root_hash P rnd now o data x t _ _ _ RP) as (hr & Hhr). exists hr. split; [exact Hhr|]. intros fuel Hf.
  destruct (whole P Ha Ho clog rnd now o nc data HM Hnc _ _ _ _ _ _ _ _ _ SU _ _ _ _ _ RS _ _ root RP get ks Hpl Hpr (proj1 Heq)) with (hr := hr) (fuel := fuel) as (s' & E & E1 & E2); auto.
  - apply root_available.
  - intros Hu. exfalso. apply Hty. eapply schema_ids; [apply SU|exact Hu].
  - apply Forall_forall. intros p Hp. apply dir_available; [unfold new; rewrite !in_app_iff; rewrite in_app_iff in Hp; tauto|].
    apply in_app_iff in Hp as [Hp|Hp].
    + destruct (data_kind P clog rnd now o nc data _ _ _ _ _ _ _ _ _ SU p Hp) as (j & nm & bb & fc & w & Hn & Hb & _).
      intros n En. apply (impl_plain _ _ _ Hty (or_intror eq_refl) Hn). unfold body_name in En. rewrite Hb in En. exact En.
    + destruct (tree_kind P clog rnd now o nc data HM Hnc _ _ _ _ _ _ _ _ _ SU _ _ _ _ _ RS p Hp) as (u & _ & _ & _ & Hn & _).
      exact (impl_plain _ _ _ Hty (or_introl eq_refl) Hn).
  - exists s'. split; [exact E|]. split; [|exact E2]. rewrite E1. apply (su_cut _ _ _ _ _ _ _ _ _ _ _ _ _ _ _ _ SU).
Qed.
Lemma seg_shape i id n : uses_name_id i = true -> impl_name i id = Ok n -> exists m c, n = Some m /\ In c m /\ c_kind c = KArray.
Proof.
  unfold uses_name_id, impl_name. intros Hu H. destruct (im_schema i) as [| |[nm|] [ty|] ls f]; try discriminate.
  destruct id as [id|]; [|discriminate]. apply bind_ok in H as (a & _ & H). apply bind_ok in H as (c & _ & H). apply bind_ok in H as (tn & _ & H).
  apply Ok_inj in H. subst n. do 2 eexists. split; [reflexivity|]. split; [apply in_app_iff; right; left; reflexivity|reflexivity].
Qed.
Lemma dir_refuses : op_type o = Segmented ->
  exists hr, packet_hash (pr_sha P) root = Ok hr /\ forall fuel, (0 < fuel)%nat ->
    exists s, traverse P get true fuel (op_name o) (Some hr) (tst_new P ks) = (Err ValueError, s) /\ ts_out s = [] /\ ts_count s = 1.
Proof.
  intros Hty. destruct (root_hash P rnd now o data x t _ _ _ RP) as (hr & Hhr). exists hr. split; [exact Hhr|]. intros fuel Hf.
  pose proof (su_ctx _ _ _ _ _ _ _ _ _ _ _ _ _ _ _ _ SU) as Hc.
  assert (exists h, packet_hash (pr_sha P) (mi_pkt (top t)) = Ok h) as (h & Hh).
  { pose proof RP as X. apply root_inv in X as (h & _ & _ & Hh & _). eauto. }
  pose proof (facts P clog rnd now o nc data _ _ _ _ _ _ _ _ _ SU _ _ _ _ _ RS h Hh) as (Hn & _).
  pose proof (proj2 (schema_ids _ _ _ _ Hc) Hty) as Hu.
  assert (In (mi_pkt (top t)) new) as Hin.
  { unfold new. rewrite in_app_iff. right. rewrite in_app_iff. left. apply in_map. rewrite <- order_infos. apply in_map. apply order_self. }
  destruct (new_wire _ Hin) as (w & Hw).
  destruct (seg_shape _ _ _ Hu Hn) as (m1 & c1 & E1 & _ & _).
  assert (exists n0, impl_name (nx_man x) (Some 0) = Ok n0) as (n0 & H0).
  { assert (0 <= mi_id (top t)) as Hp.
    { clear - Hn Hu. unfold uses_name_id in Hu. unfold impl_name in Hn. destruct (im_schema (nx_man x)) as [| |[nm|] [ty|] ls f]; try discriminate.
      apply bind_ok in Hn as (a & Ea & _). apply number_to_array_ok in Ea as (? & _). lia. }
    destruct (packet_name_ok _ _ _ Hw E1) as (tn & Htn). rewrite E1 in Hn.
    destruct (impl_name_mono (nx_man x) 0 _ _ (conj (Z.le_refl 0) Hp) Hn) as (na & H0 & _); [exists [tn], tn; auto|]. eauto. }
  destruct (seg_shape _ _ _ Hu H0) as (m0 & c0 & -> & Hc0 & Hk0).
  eapply (whole_not P Ha Ho clog rnd now o nc data HM Hnc _ _ _ _ _ _ _ _ _ SU _ _ _ _ _ RS _ _ root RP get ks Hpl Hpr (proj1 Heq)); try eassumption.
  - apply root_available.
  - rewrite (dir_answer _ h _ Hin Hh). eapply check_id; eassumption.
Qed.
End Dir.

(* Hashed and prefixed trees: traversing the directory from the hash and name
   of the root manifest writes back the file. *)
Theorem C58_directory_read_back : forall P clog rnd now (o : opts P) nc data s root s' ks uri_path (dopt : dwopt P) ds later,
  log_ok clog -> op_max o <= 2 ^ 24 -> nc + 1 < 2 ^ 64 ->
  aead_correct P -> oaep_correct P -> sig_correct P ->
  op_type o <> Segmented -> plain_prefixes o -> plain_name (op_name o) -> printable_locators o -> equipped o ks ->
  sent_times o now -> do_nested dopt = false -> ms_out s = [] ->
  manifest_tree P clog rnd now o nc data s = (Ok root, s') -> no_collisions P (ms_out s') ->
  let get := dir_get uri_path later (dw_files (dir_puts P uri_path dopt (ms_out s') ds)) in
  exists hr, packet_hash (pr_sha P) root = Ok hr /\
    reads_back get ks (op_name o) hr (length (ms_out s')) data (zlen (ms_out s')).
Proof.
  intros P clog rnd now o nc data s root s' ks uri_path dopt ds later HL HM Hnc Ha Ho Hsg Hty Hpl Hnm Hpr Heq Htm Hfl Hs H NC.
  apply (manifest_tree_ok P clog rnd now o nc data HL HM) in H as (k' & x & ps & l & pkts & meta & num & r & lv & t & np & b & k2 & SU & RS & RP & ->).
  cbn [ms_out] in *. rewrite Hs in *. cbn [app] in *.
  eapply (dir_reads P clog rnd now o nc data HM Hnc Ha Ho Hsg Hpl Hpr ks Heq Hnm Htm _ _ _ _ _ _ _ _ _ SU _ _ _ _ _ RS _ _ root RP); assumption.
Qed.
(* Segmented trees: never.  The traversal visits the root manifest, then raises
   ValueError, and nothing has been written. *)
Theorem C58_segmented_refuted : forall P clog rnd now (o : opts P) nc data s root s' ks uri_path (dopt : dwopt P) ds later,
  log_ok clog -> op_max o <= 2 ^ 24 -> nc + 1 < 2 ^ 64 ->
  aead_correct P -> oaep_correct P -> sig_correct P ->
  op_type o = Segmented -> plain_prefixes o -> equipped o ks ->
  sent_times o now -> do_nested dopt = false -> ms_out s = [] ->
  manifest_tree P clog rnd now o nc data s = (Ok root, s') -> no_collisions P (ms_out s') ->
  let get := dir_get uri_path later (dw_files (dir_puts P uri_path dopt (ms_out s') ds)) in
  exists hr, packet_hash (pr_sha P) root = Ok hr /\ forall fuel, (0 < fuel)%nat ->
    exists ts, traverse P get true fuel (op_name o) (Some hr) (tst_new P ks) = (Err ValueError, ts) /\
      ts_out ts = [] /\ ts_count ts = 1.
Proof.
  intros P clog rnd now o nc data s root s' ks uri_path dopt ds later HL HM Hnc Ha Ho Hsg Hty Hpl Heq Htm Hfl Hs H NC.
  apply (manifest_tree_ok P clog rnd now o nc data HL HM) in H as (k' & x & ps & l & pkts & meta & num & r & lv & t & np & b & k2 & SU & RS & RP & ->).
  cbn [ms_out] in *. rewrite Hs in *. cbn [app] in *.
  assert (printable_locators o) as Hpr by (unfold printable_locators; rewrite Hty; exact I).
  assert (plain_name (op_name o)) as Hnm by (unfold plain_prefixes in Hpl; rewrite Hty in Hpl; apply Hpl).
  eapply (dir_refuses P clog rnd now o nc data HM Hnc Ha Ho Hsg Hpl Hpr ks Heq Hnm Htm _ _ _ _ _ _ _ _ _ SU _ _ _ _ _ RS _ _ root RP); assumption.
Qed.

(* the outcome of a build, written to a directory and traversed: error, whether
   the data came back, packets visited, no collisions *)
Definition ex_dir (o : opts toy) (ks : option (keystore toy)) (data : bytes) : option exn * bool * Z * bool :=
  match manifest_tree toy exact_log (ex_nonce o) (mkFl 0 0) o 1 data (mkMst [] 0) with
  | (Err e, _) => (Some e, false, 0, false)
  | (Ok root, s) =>
    match packet_hash (pr_sha toy) root with
    | Ok h =>
      let d := dw_files (dir_puts toy ex_uri (mkDO toy true (Some (SRsa (P := toy) 7)) false (mkFl 0 0)) (ms_out s) (mkDW [] [] 0 0 0 0 0 0)) in
      let '(r, t) := traverse toy (dir_get ex_uri (mkFl 0 0) d) true (length (ms_out s)) (op_name o) (Some h) (tst_new toy ks) in
      (match r with Ok _ => None | Err e => Some e end, beqb (concat (ts_out t)) data, ts_count t,
       ex_same (ms_out s) (ms_out s))
    | _ => (None, false, 0, false)
    end
  end.
Example C58_ex :
  (forall ty, sent_times (ex_secret ty 400) (mkFl 0 0) /\ plain_name (op_name (ex_secret ty 400))) /\
  ex_dir (ex_secret Hashed 400) (Some ex_store) (ex_bytes 1000) = (None, true, 5, true) /\
  ex_dir (ex_secret Prefixed 400) (Some ex_store) (ex_bytes 900) = (None, true, 5, true) /\
  ex_dir (ex_wrapped Hashed 500) (Some ex_store2) (ex_bytes 900) = (None, true, 4, true) /\
  ex_dir (ex_secret Segmented 300) (Some ex_store) (ex_bytes 600) = (Some ValueError, false, 1, true).
Proof.
  split.
  - intros ty. split; [|apply ex_plain]. split.
    + cbn [op_dexp op_mexp op_rexp ex_secret]. intros f [X|[X|X]]; discriminate X.
    + intros sk _. exists 0. split; [lia|]. split; vm_compute; reflexivity.
  - split; [vm_compute; reflexivity|]. split; [vm_compute; reflexivity|]. split; vm_compute; reflexivity.
Qed.
Print Assumptions C58_directory_read_back.
Print Assumptions C58_segmented_refuted.
