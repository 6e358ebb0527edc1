(* Lengths of manifests, used by PropsSize.v. *)
From Coq Require Import ZArith List Bool Lia ZifyBool.
From Verif Require Import Py Tlv Float Core TlvProofs FloatProofs CoreProofs Flic FlicProofs Crypto CryptoProofs
  Optimizer OptimizerProofs Tree TreeSpec TreeProofs TreeFacts ChunkProofs.
Import ListNotations.
Open Scope Z_scope.
Opaque tlv_make tlv_wire tlv_deserialize.

(* ---------------- TLV lengths ---------------- *)

Definition olen (o : option Z) : Z := match o with None => 0 | Some n => 4 + int_len n end.
Lemma olen_tlvs ty o l : opt_tlvs (int_tlv ty) o l -> wlen l = olen o.
Proof.
  destruct o; cbn [opt_tlvs olen]; [intros (t & E & ->)|intros ->; reflexivity].
  rewrite wlen_one. eapply int_tlv_len; eauto.
Qed.
Lemma olen_nonneg o : 0 <= olen o.
Proof. destruct o; cbn [olen]; [|lia]. pose proof (int_len_pos z). lia. Qed.

Definition gd_len (g : gdata) : Z :=
  4 + olen (gd_subtree_size g) + olen (gd_leaf_size g) + olen (gd_nc_id g) + olen (gd_start g).
Lemma gd_tlv_len g t : gd_subtree_digest g = None -> gd_leaf_digest g = None -> gd_tlv g = Ok t ->
  tlv_len t = gd_len g.
Proof.
  intros D1 D2 H. apply gd_tlv_ok in H as (_ & _ & l1 & l2 & l3 & l4 & l5 & l6 & O1 & O2 & O3 & O4 & O5 & O6 & _ & Hv).
  rewrite D1 in O2. rewrite D2 in O4. cbn [opt_tlvs] in O2, O4. subst l2 l4.
  unfold tlv_len, tlv_length. rewrite Hv. fold (wlen (l1 ++ [] ++ l3 ++ [] ++ l5 ++ l6)).
  rewrite !wlen_app, wlen_nil, (olen_tlvs _ _ _ O1), (olen_tlvs _ _ _ O3), (olen_tlvs _ _ _ O5), (olen_tlvs _ _ _ O6).
  unfold gd_len. lia.
Qed.

(* 32-byte hashes *)
Definition sha_len (h : hashv) : Prop := zlen (h_val h) = 32.
Lemma hashes_len hs l : Forall sha_len hs -> mapM hashv_tlv hs = Ok l -> wlen l = 36 * zlen hs.
Proof.
  intros F H. apply mapM_ok_Forall2 in H. induction H as [|h t hs l E H IH]; [reflexivity|].
  inversion F as [|? ? S F']; subst. rewrite (wlen_app [t] l : wlen (t :: l) = _), wlen_one, zlen_cons, IH by assumption.
  apply hashv_tlv_ok in E as (_ & ->). unfold tlv_len, tlv_length. cbn [t_val]. unfold sha_len in S. lia.
Qed.
Definition hg_len (g : gdata) (k : Z) : Z := 4 + gd_len g + (4 + 36 * k).
Lemma hg_tlv_len g hs t : gd_subtree_digest g = None -> gd_leaf_digest g = None -> Forall sha_len hs ->
  hg_tlv (mkHG (Some g) (Some hs)) = Ok t -> tlv_len t = hg_len g (zlen hs).
Proof.
  intros D1 D2 F H. apply hg_tlv_ok in H as (_ & _ & l1 & l2 & O1 & O2 & _ & Hv).
  cbn [hg_data hg_ptrs opt_tlvs] in *. destruct O1 as (t1 & E1 & ->), O2 as (t2 & E2 & ->).
  unfold tlv_len, tlv_length. rewrite Hv. fold (wlen ([t1] ++ [t2])). rewrite wlen_app, !wlen_one.
  rewrite (gd_tlv_len _ _ D1 D2 E1). apply ptrs_tlv_ok in E2 as (_ & _ & l & El & Hv2).
  unfold tlv_len, tlv_length. rewrite Hv2. fold (wlen l). rewrite (hashes_len _ _ F El). unfold hg_len. lia.
Qed.
Definition nd_len (o : option Z) : Z := match o with None => 0 | Some n => 4 + (4 + int_len n) end.
Lemma nd_tlvs_len s l : opt_tlvs nd_tlv (option_map (fun b => mkND (Some b) None None [] []) s) l ->
  wlen l = nd_len s.
Proof.
  destruct s as [b|]; cbn [option_map opt_tlvs nd_len]; [intros (t & E & ->)|intros ->; reflexivity].
  apply nd_tlv_ok in E as (_ & _ & l1 & l2 & l3 & l4 & l5 & O1 & O2 & O3 & M4 & M5 & _ & Hv).
  cbn [nd_size nd_digest nd_locators nd_ncdefs nd_vendors opt_tlvs mapM] in *.
  apply Ok_inj in M4, M5. subst l2 l3 l4 l5. destruct O1 as (t1 & E1 & ->).
  rewrite wlen_one. unfold tlv_len, tlv_length. rewrite Hv. cbn [app]. fold (wlen [t1]). rewrite wlen_one.
  rewrite (int_tlv_len _ _ _ E1). lia.
Qed.
(* a node with only a size annotation; groups given as (data, pointers) *)
Definition gnode (s : option Z) (gs : list (gdata * list hashv)) : node :=
  mkNode (option_map (fun b => mkND (Some b) None None [] []) s)
    (map (fun x => mkHG (Some (fst x)) (Some (snd x))) gs) None.
Definition plain (x : gdata * list hashv) : Prop :=
  gd_subtree_digest (fst x) = None /\ gd_leaf_digest (fst x) = None /\ Forall sha_len (snd x).
Definition node_len (s : option Z) (gs : list (gdata * list hashv)) : Z :=
  4 + nd_len s + zsum (map (fun x => hg_len (fst x) (zlen (snd x))) gs).
Lemma groups_len gs l : Forall plain gs ->
  mapM hg_tlv (map (fun x => mkHG (Some (fst x)) (Some (snd x))) gs) = Ok l ->
  wlen l = zsum (map (fun x => hg_len (fst x) (zlen (snd x))) gs).
Proof.
  intros F. revert l. induction F as [|[g hs] gs (D1 & D2 & S) F IH]; intros l H; cbn [map mapM] in H.
  - apply Ok_inj in H. subst l. reflexivity.
  - apply bind_ok in H as (t & Et & H). apply bind_ok in H as (l' & El & H). apply Ok_inj in H. subst l.
    rewrite (wlen_app [t] l' : wlen (t :: l') = _), wlen_one, (IH _ El). cbn [fst snd] in *. cbn [map].
    rewrite zsum_cons, (hg_tlv_len _ _ _ D1 D2 S Et). reflexivity.
Qed.
Lemma gnode_len s gs t : Forall plain gs -> node_tlv (gnode s gs) = Ok t -> tlv_len t = node_len s gs.
Proof.
  intros F H. apply node_tlv_ok in H as (_ & _ & _ & Hv).
  apply node_value_ok in Hv as (l1 & l2 & l3 & O1 & M2 & _ & Hw & _ & Hp).
  unfold gnode in *. cbn [n_data n_groups n_pad] in *.
  subst l3.
  unfold tlv_len, tlv_length. rewrite Hw. fold (wlen (l1 ++ l2 ++ [])). rewrite !wlen_app, wlen_nil.
  rewrite (nd_tlvs_len _ _ O1), (groups_len _ _ F M2). unfold node_len. lia.
Qed.

(* ---------------- manifests ---------------- *)

(* the AEAD output is the ciphertext, as long as the plaintext, and a 16-byte tag *)
Definition seal_adds_tag (P : prims) : Prop := forall a k iv pt aad c,
  pr_seal P a k iv pt aad = Ok c -> zlen c = zlen pt + 16.
Definition same_nonce_len (rnd : nat -> bytes) : Prop := forall i j, zlen (rnd i) = zlen (rnd j).

Lemma aead_wire_len a b wa wb : a_keynum a = a_keynum b -> zlen (a_nonce a) = zlen (a_nonce b) ->
  a_mode a = a_mode b -> a_kdf a = a_kdf b -> aead_wire a = Ok wa -> aead_wire b = Ok wb -> zlen wa = zlen wb.
Proof.
  intros E1 E2 E3 E4 Ha Hb. unfold aead_wire in *. rewrite <- E1, <- E3, <- E4 in Hb.
  apply bind_ok in Ha as (t1 & F1 & Ha). rewrite F1 in Hb. cbn [bind] in Hb.
  apply bind_ok in Ha as (t2 & F2 & Ha). apply bind_ok in Hb as (t2' & F2' & Hb).
  apply bind_ok in Ha as (t3 & F3 & Ha). rewrite F3 in Hb. cbn [bind] in Hb.
  apply bind_ok in Ha as (t4 & F4 & Ha). rewrite F4 in Hb. cbn [bind] in Hb.
  apply Ok_inj in Ha, Hb. subst wa wb. cbn [flatten].
  apply octet_tlv_ok in F2 as (_ & _ & V2). apply octet_tlv_ok in F2' as (_ & _ & V2').
  rewrite !zlen_app, !zlen_tlv_wire. unfold tlv_len, tlv_length. rewrite V2, V2'. lia.
Qed.

Lemma tlv_make_len ty b t : tlv_make ty b = Ok t -> tlv_len t = 4 + zlen b.
Proof. intros H. apply tlv_make_tlv_ok in H as (_ & _ & V). unfold tlv_len, tlv_length. rewrite V. lia. Qed.

Section Man.
Context (P : prims).
Variable rnd : nat -> bytes.
Variable now : fl.
Hypothesis HP : seal_adds_tag P.
Hypothesis HR : same_nonce_len rnd.

Lemma seal_len k iv pt aad ct tag : aead_seal P k iv pt aad = Ok (ct, tag) -> zlen ct = zlen pt /\ zlen tag = 16.
Proof.
  unfold aead_seal. intros H. apply bind_ok in H as (out & Eo & H). apply HP in Eo.
  apply bind_ok in H as (c & Ec & H). apply bind_ok in H as (t & Et & H). apply Ok_inj in H. injection H as <- <-.
  apply array_B_ok in Ec as (_ & ->). apply array_B_ok in Et as (_ & ->).
  pose proof (zlen_nonneg pt). rewrite zlen_zskip by (rewrite ?zlen_ztake by lia; lia). rewrite !zlen_ztake by lia. lia.
Qed.

Lemma enc_ctx_len p n c ct tag t : encrypt_with_ctx P p n c = Ok (ct, tag) -> node_tlv n = Ok t ->
  zlen ct = tlv_len t - 4 /\ zlen tag = 16.
Proof.
  unfold encrypt_with_ctx. intros H Et. apply bind_ok in H as (iv & _ & H). rewrite Et in H. cbn [bind] in H.
  apply bind_ok in H as (tc & _ & H). apply bind_ok in H as ([ct' tag'] & Es & H).
  apply bind_ok in H as (? & _ & H). apply bind_ok in H as (? & _ & H). apply Ok_inj in H. injection H as -> ->.
  apply seal_len in Es as (-> & ->). unfold tlv_len, tlv_length. lia.
Qed.

Lemma manifest_of_len c ct tag m w : manifest_of (c, ct, tag) = Ok m -> man_wire m = Ok w ->
  exists tc, ctx_tlv c = Ok tc /\ zlen w = tlv_len tc + (4 + zlen ct) + (4 + zlen tag).
Proof.
  unfold manifest_of. intros H Hw. apply bind_ok in H as (? & _ & H). apply Ok_inj in H. subst m.
  unfold man_wire in Hw. cbn [m_ctx m_node m_tag wire_opt mnode_tlv] in Hw.
  apply bind_ok in Hw as (a1 & E1 & Hw). apply bind_ok in E1 as (tc & Ec & E1). apply Ok_inj in E1. subst a1.
  apply bind_ok in Hw as (t2 & E2 & Hw). apply bind_ok in Hw as (a3 & E3 & Hw). apply bind_ok in E3 as (t3 & E3 & X).
  apply Ok_inj in X, Hw. subst a3 w. cbn [flatten].
  apply octet_tlv_ok in E2 as (_ & _ & V2). apply octet_tlv_ok in E3 as (_ & _ & V3).
  exists tc. split; [exact Ec|]. rewrite !zlen_app, !zlen_tlv_wire, zlen_nil. unfold tlv_len at 2 3, tlv_length.
  rewrite V2, V3. lia.
Qed.

(* two manifests made with the same options differ in length as their nodes do *)
Lemma man_len_diff (v : tenv P) nd1 nd2 k1 k2 m1 m2 w1 w2 t1 t2 :
  manifest_for P rnd v nd1 k1 m1 -> manifest_for P rnd v nd2 k2 m2 ->
  man_wire m1 = Ok w1 -> man_wire m2 = Ok w2 -> node_tlv nd1 = Ok t1 -> node_tlv nd2 = Ok t2 ->
  zlen w1 - zlen w2 = tlv_len t1 - tlv_len t2.
Proof.
  unfold manifest_for. intros M1 M2 W1 W2 T1 T2. destruct (op_enc (te_opt v)) as [|a|i].
  - subst m1 m2. unfold man_wire in *. cbn [m_ctx m_node m_tag wire_opt mnode_tlv bind] in *.
    rewrite T1 in W1. rewrite T2 in W2. cbn [bind flatten] in *. apply Ok_inj in W1, W2. subst w1 w2.
    rewrite !app_nil_r, !zlen_tlv_wire. reflexivity.
  - unfold aead_create_manifest, aead_encrypt in *.
    apply bind_ok in M1 as (r1 & E1 & M1). apply bind_ok in M2 as (r2 & E2 & M2).
    apply bind_ok in E1 as (a1 & A1 & E1). apply bind_ok in E1 as (? & _ & E1). apply bind_ok in E1 as ([ct1 tg1] & X1 & E1).
    apply bind_ok in E2 as (a2 & A2 & E2). apply bind_ok in E2 as (? & _ & E2). apply bind_ok in E2 as ([ct2 tg2] & X2 & E2).
    apply Ok_inj in E1, E2. subst r1 r2.
    apply (enc_ctx_len _ _ _ _ _ _ X1) in T1 as (L1 & G1). apply (enc_ctx_len _ _ _ _ _ _ X2) in T2 as (L2 & G2).
    apply (manifest_of_len _ _ _ _ _ M1) in W1 as (c1 & C1 & ->). apply (manifest_of_len _ _ _ _ _ M2) in W2 as (c2 & C2 & ->).
    assert (tlv_len c1 = tlv_len c2) as Ec; [|lia].
    cbn [ctx_tlv] in C1, C2. apply bind_ok in C1 as (b1 & B1 & C1). apply bind_ok in C2 as (b2 & B2 & C2).
    apply bind_ok in C1 as (i1 & I1 & C1). apply bind_ok in C2 as (i2 & I2 & C2).
    apply tlv_make_len in C1, C2, I1, I2. rewrite zlen_tlv_wire in C1, C2.
    unfold create_aead_data in A1, A2. apply bind_ok in A1 as (m & Em & A1). rewrite Em in A2. cbn [bind] in A2.
    apply bind_ok in A1 as (? & _ & A1). apply bind_ok in A2 as (? & _ & A2). apply Ok_inj in A1, A2. subst a1 a2.
    assert (zlen b1 = zlen b2) by (refine (aead_wire_len _ _ b1 b2 _ _ _ _ B1 B2); try reflexivity; apply HR). lia.
  - unfold oaep_create_manifest, oaep_encrypt in *.
    apply bind_ok in M1 as (r1 & E1 & M1). apply bind_ok in M2 as (r2 & E2 & M2).
    apply bind_ok in E1 as (a1 & A1 & E1). apply bind_ok in E1 as (? & _ & E1). apply bind_ok in E1 as ([ct1 tg1] & X1 & E1).
    apply bind_ok in E2 as (a2 & A2 & E2). apply bind_ok in E2 as (? & _ & E2). apply bind_ok in E2 as ([ct2 tg2] & X2 & E2).
    apply Ok_inj in E1, E2. subst r1 r2.
    apply (enc_ctx_len _ _ _ _ _ _ X1) in T1 as (L1 & G1). apply (enc_ctx_len _ _ _ _ _ _ X2) in T2 as (L2 & G2).
    apply (manifest_of_len _ _ _ _ _ M1) in W1 as (c1 & C1 & ->). apply (manifest_of_len _ _ _ _ _ M2) in W2 as (c2 & C2 & ->).
    assert (tlv_len c1 = tlv_len c2) as Ec; [|lia].
    cbn [ctx_tlv optM] in C1, C2. apply bind_ok in C1 as (b1 & B1 & C1). apply bind_ok in C2 as (b2 & B2 & C2).
    cbn [bind] in C1, C2.
    apply bind_ok in C1 as (i1 & I1 & C1). apply bind_ok in C2 as (i2 & I2 & C2).
    apply tlv_make_len in C1, C2, I1, I2. rewrite zlen_tlv_wire in C1, C2. cbn [flatten] in I1, I2. rewrite app_nil_r in I1, I2.
    unfold create_aead_data in A1, A2. apply bind_ok in A1 as (m & Em & A1). rewrite Em in A2. cbn [bind] in A2.
    apply bind_ok in A1 as (? & _ & A1). apply bind_ok in A2 as (? & _ & A2). apply Ok_inj in A1, A2. subst a1 a2.
    assert (zlen b1 = zlen b2) by (refine (aead_wire_len _ _ b1 b2 _ _ _ _ B1 B2); try reflexivity; apply HR). lia.
Qed.
End Man.

(* ---------------- packets ---------------- *)

Lemma packet_wire_len p c b : p_body p = BCO c -> p_alg p = None -> p_vpl p = None -> packet_wire p = Ok b ->
  exists t, co_tlv c = Ok t /\ zlen b = 8 + tlv_len t.
Proof.
  intros Hb Ha Hv H. apply packet_wire_ok in H as (h & c' & t & l2 & l3 & Hh & Hb' & Hc & O2 & O3 & _ & _ & Ew & _).
  rewrite Hb in Hb'. injection Hb' as <-. rewrite Ha in O2. rewrite Hv in O3. cbn [opt_tlvs] in *. subst l2 l3.
  exists t. split; [exact Hc|]. cbn [app] in Ew. rewrite wires_one in Ew. subst b.
  pose proof (hdr_serialize_ok _ _ Hh) as [L8 _]. rewrite zlen_app, L8, zlen_tlv_wire. reflexivity.
Qed.
Lemma co_len n pt w e t : co_tlv (mkCO n (Some pt) (Some w) e None) = Ok t ->
  8 + tlv_len t = data_len n e w None.
Proof.
  intros H. apply co_tlv_ok in H as (_ & _ & l1 & l2 & l3 & l4 & l5 & O1 & O2 & O3 & O4 & O5 & _ & Hv).
  cbn [co_name co_ptype co_payload co_expiry co_fcid opt_tlvs] in *. subst l5.
  unfold data_len, tlv_len, tlv_length. rewrite Hv. fold (wlen (l1 ++ l2 ++ l3 ++ l4 ++ [])).
  rewrite !wlen_app, wlen_nil, (name_len_tlvs _ _ O1), (exp_len_tlvs _ _ O2).
  destruct O3 as (t3 & E3 & ->), O4 as (t4 & E4 & ->).
  rewrite !wlen_one, (ptype_len _ _ E3). apply payload_tlv_ok in E4 as (_ & ->).
  unfold tlv_len at 1, tlv_length. cbn [t_val fcid_len]. lia.
Qed.
Lemma body_len p n pt w e b : p_body p = BCO (mkCO n (Some pt) (Some w) e None) -> p_alg p = None ->
  p_vpl p = None -> packet_wire p = Ok b -> zlen b = 21 + name_len n + exp_len e + zlen w.
Proof.
  intros Hb Ha Hv H. destruct (packet_wire_len _ _ _ Hb Ha Hv H) as (t & Et & ->).
  rewrite (co_len _ _ _ _ _ Et). unfold data_len. cbn [fcid_len]. lia.
Qed.

Section Ref.
Context (P : prims).
Variable rnd : nat -> bytes.
Variable now : fl.
Variable o : opts P.
Variable x : nctx.

Lemma fac_packet_inv src defs a b c d e nm ex inc k p k' :
  fac_packet P rnd now o src defs a b c d e nm ex false inc k = (Ok p, k') ->
  exists m w bb, fac_build P rnd o src defs a b c d e inc k = (Ok m, k') /\ man_wire m = Ok w /\
    zlen w <= op_max o /\ p_body p = BCO (mkCO nm (Some PT_MANIFEST) (Some w) ex None) /\
    p_alg p = None /\ p_vpl p = None /\ packet_wire p = Ok bb /\ zlen bb < 65536.
Proof.
  unfold fac_packet, sbind, lift, sret.
  destruct (fac_build P rnd o src defs a b c d e inc k) as [[m|] k1] eqn:Eb; [|discriminate].
  destruct (man_content m nm ex) as [q|] eqn:Ec; [|discriminate].
  destruct (create_content_object q) as [p'|] eqn:Ep; [|discriminate].
  destruct (packet_hash (pr_sha P) p'); [|discriminate]. intros [= -> ->].
  unfold man_content in Ec. apply bind_ok in Ec as (w & Ew & Ec). apply bind_ok in Ec as (? & _ & Ec).
  apply bind_ok in Ec as (? & _ & Ec). apply Ok_inj in Ec. subst q.
  apply create_co_ok in Ep as (t & _ & -> & Lp & L16). unfold packet_len in Lp. apply bind_ok in Lp as (bb & Ebb & Lp).
  apply Ok_inj in Lp. exists m, w, bb. repeat split; auto; [|lia].
  unfold fac_build, sbind, lift, sret in Eb.
  match type of Eb with (let (_, _) := ?z in _) = _ => destruct z as [[m'|] k2]; [|discriminate] end.
  destruct (man_wire m') as [w'|] eqn:Ew'; [|discriminate].
  destruct (guard (zlen w' <=? op_max o) ValueError) eqn:G; [|discriminate]. injection Eb as -> ->.
  rewrite Ew in Ew'. apply Ok_inj in Ew'. subst w'. apply guard_ok in G. lia.
Qed.

Lemma from_node_inv (v : tenv P) nd k m k' : te_opt v = o ->
  fac_from_node P rnd o false nd k = (Ok m, k') -> manifest_for P rnd v nd k m.
Proof.
  intros <-. unfold fac_from_node, manifest_for, sbind, lift, sget, smod, sret.
  unfold aead_create_manifest, oaep_create_manifest. destruct (op_enc (te_opt v)).
  - destruct (man_wire _); [|discriminate]. now intros [= <- _].
  - destruct (bind _ _) eqn:E; [|discriminate]. now intros [= <- _].
  - destruct (bind _ _) eqn:E; [|discriminate]. now intros [= <- _].
Qed.

Lemma times_direct n : forall maxd maxi hs dc, dc + Z.of_nat n <= maxd ->
  times n (fun b => hb_prepend_direct b ref_hash None) (mkHB hs 0 0 dc 0 maxd maxi)
    = Ok (mkHB (repeat ref_hash n ++ hs) 0 0 (dc + Z.of_nat n) 0 maxd maxi).
Proof.
  induction n as [|n IH]; intros maxd maxi hs dc H; cbn [times].
  - rewrite Z.add_0_r. reflexivity.
  - unfold hb_prepend_direct at 1. cbn [hb_dcount hb_maxd hb_ptrs hb_dsize hb_isize hb_icount hb_maxi add_opt].
    replace (dc <? maxd) with true by lia. cbn [guard bind]. rewrite IH by lia.
    do 2 f_equal; [|lia]. change (repeat ref_hash (S n)) with (ref_hash :: repeat ref_hash n). rewrite (repeat_cons n ref_hash), <- app_assoc. reflexivity.
Qed.
Lemma times_on_direct n f : forall p,
  times n (pr_on_direct f) p = match p with
                               | One b => b' <- times n f b ;; Ok (One b')
                               | Two d i => d' <- times n f d ;; Ok (Two d' i)
                               end.
Proof.
  induction n as [|n IH]; intros [b|d i]; try reflexivity; cbn [times pr_on_direct].
  - destruct (f b); cbn [bind]; [apply IH|reflexivity].
  - destruct (f d); cbn [bind]; [apply IH|reflexivity].
Qed.

Definition ref_gs (num : Z) : list (gdata * list hashv) :=
  if nx_two x then
    [(mkGD (Some 0) None (Some 0) None (Some (im_nc (nx_data x)))
        (opt_if (uses_name_id (nx_data x)) MAX_CHUNK_ID), repeat ref_hash (Z.to_nat (num - 1)));
     (mkGD (Some 0) None (Some 0) None (Some (im_nc (nx_man x)))
        (opt_if (uses_name_id (nx_man x)) MAX_MANIFEST_ID), [ref_hash])]
  else [(mkGD (Some 0) None (Some 0) None (Some (im_nc (nx_man x))) None, repeat ref_hash (Z.to_nat num))].

Lemma ref_groups_inv num gs : ctx_wf x -> 1 <= num -> ref_groups x num = Ok gs ->
  gs = map (fun y => mkHG (Some (fst y)) (Some (snd y))) (ref_gs num).
Proof.
  intros Hx Hn H. unfold ref_groups in H. rewrite times_on_direct in H.
  unfold pr_new, hb_new, ref_gs, ctx_wf in *.
  destruct (nx_two x).
  - rewrite times_direct in H by lia. rewrite app_nil_r in H. cbn [bind pr_on_indirect] in H.
    unfold hb_prepend_indirect in H. cbn [hb_icount hb_maxi hb_ptrs hb_dsize hb_isize hb_dcount hb_maxd add_opt] in H.
    change (0 <? 1) with true in H. cbn [guard bind pr_groups] in H.
    apply bind_ok in H as (g1 & G1 & H). apply bind_ok in H as (g2 & G2 & H). apply Ok_inj in H. subst gs.
    apply hb_group_inv in G1, G2. subst g1 g2.
    cbn [hb_ptrs hb_dsize hb_isize map fst snd]. reflexivity.
  - destruct Hx as (Hd & Hu). rewrite times_direct in H by lia. rewrite app_nil_r in H. cbn [bind pr_on_indirect] in H.
    unfold hb_prepend_indirect in H. cbn [hb_icount hb_maxi hb_ptrs hb_dsize hb_isize hb_dcount hb_maxd add_opt] in H.
    change (0 <? 1) with true in H. cbn [guard bind pr_groups] in H.
    apply bind_ok in H as (? & _ & H). apply bind_ok in H as (? & _ & H).
    apply bind_ok in H as (g1 & G1 & H). apply Ok_inj in H. subst gs.
    apply hb_group_inv in G1. subst g1.
    cbn [hb_ptrs hb_dsize hb_isize map fst snd]. replace (Z.to_nat num) with (S (Z.to_nat (num - 1))) by lia. reflexivity.
Qed.
Lemma ref_hash_len : sha_len ref_hash. Proof. reflexivity. Qed.
Lemma repeat_sha n : Forall sha_len (repeat ref_hash n).
Proof. apply Forall_forall. intros h H. apply repeat_spec in H. subst h. apply ref_hash_len. Qed.
Lemma ref_gs_plain num : Forall plain (ref_gs num).
Proof.
  unfold ref_gs, plain. destruct (nx_two x); repeat constructor; cbn [fst snd]; auto using repeat_sha, ref_hash_len.
Qed.

Lemma ref_packet_inv total num k p k' : ctx_wf x -> 1 <= num ->
  ref_packet P rnd now o x total num k = (Ok p, k') ->
  let nd := gnode (opt_if (op_nsize o) total) (ref_gs num) in
  exists m w t b, manifest_for P rnd (mkEnv P [] 0 0 0 x o) nd k m /\ man_wire m = Ok w /\
    node_tlv nd = Ok t /\ packet_wire p = Ok b /\ zlen b = 21 + zlen w /\ zlen b < 65536.
Proof.
  intros Hx Hn H nd. unfold ref_packet, sbind, lift in H.
  destruct (ref_groups x num) as [gs|] eqn:Eg; [|discriminate].
  apply ref_groups_inv in Eg; [|assumption..]. apply fac_packet_inv in H as (m & w & b & Hb & Hw & _ & Hp & Ha & Hv & Hbb & L16).
  pose proof (body_len _ _ _ _ _ _ Hp Ha Hv Hbb) as Lb. cbn [name_len exp_len] in Lb.
  unfold fac_build, sbind, lift, sret in Hb. unfold fac_from_groups, sbind, lift in Hb. cbn [is_none negb keep] in Hb.
  assert (mkNode (if negb (is_none (keep (op_nsize o) (Some total))) || false
                  then Some (mkND (keep (op_nsize o) (Some total)) None None [] []) else None) gs None = nd) as End.
  { subst gs nd. unfold gnode, keep, opt_if. destruct (op_nsize o); reflexivity. }
  rewrite End in Hb. destruct (node_tlv nd) as [t|] eqn:Et; [|discriminate].
  destruct (fac_from_node P rnd o false nd k) as [[m'|] k2] eqn:Ef; [|discriminate].
  destruct (man_wire m') as [b0|] eqn:Em; [|discriminate].
  destruct (guard (zlen b0 <=? op_max o) ValueError); [|discriminate]. injection Hb as -> ->.
  exists m, w, t, b. split; [|repeat split; auto; lia]. eapply from_node_inv; [|exact Ef]. reflexivity.
Qed.

Lemma ref_node_len s num : 1 <= num -> node_len s (ref_gs num) = node_len s (ref_gs 1) + 36 * (num - 1).
Proof.
  intros Hn. assert (zr : forall n (h : hashv), zlen (repeat h n) = Z.of_nat n)
    by (intros; unfold zlen; now rewrite repeat_length).
  unfold node_len, ref_gs. destruct (nx_two x); cbn [map]; rewrite ?zsum_cons; cbn [fst snd];
    unfold hg_len; rewrite ?zr; lia.
Qed.

Hypothesis HP : seal_adds_tag P.
Hypothesis HR : same_nonce_len rnd.

(* reference packets grow by 36 bytes per pointer *)
Lemma ref_packet_diff total n1 n2 k1 k2 p1 p2 k1' k2' b1 b2 : ctx_wf x -> 1 <= n1 -> 1 <= n2 ->
  ref_packet P rnd now o x total n1 k1 = (Ok p1, k1') -> ref_packet P rnd now o x total n2 k2 = (Ok p2, k2') ->
  packet_wire p1 = Ok b1 -> packet_wire p2 = Ok b2 -> zlen b1 - zlen b2 = 36 * (n1 - n2).
Proof.
  intros Hx H1 H2 R1 R2 B1 B2.
  apply ref_packet_inv in R1 as (m1 & w1 & t1 & b1' & M1 & W1 & T1 & B1' & L1 & _); [|assumption..].
  apply ref_packet_inv in R2 as (m2 & w2 & t2 & b2' & M2 & W2 & T2 & B2' & L2 & _); [|assumption..].
  assert (b1' = b1) as -> by congruence. assert (b2' = b2) as -> by congruence.
  pose proof (man_len_diff P rnd HP HR _ _ _ _ _ _ _ _ _ _ _ M1 M2 W1 W2 T1 T2) as D.
  rewrite (gnode_len _ _ _ (ref_gs_plain n1) T1), (gnode_len _ _ _ (ref_gs_plain n2) T2) in D.
  rewrite (ref_node_len _ n1), (ref_node_len _ n2) in D by assumption. lia.
Qed.

Lemma max_pointers_inv total k num k' : max_pointers P rnd now o x total k = (Ok num, k') ->
  exists p1 k1 b1 p2 b2 q, ref_packet P rnd now o x total 1 k = (Ok p1, k1) /\ packet_wire p1 = Ok b1 /\
    zlen b1 < op_max o /\ int_div (op_max o - zlen b1) 36 = Ok q /\ num = q + 1 /\ 2 <= num /\
    ref_packet P rnd now o x total num k1 = (Ok p2, k') /\ packet_wire p2 = Ok b2 /\ zlen b2 <= op_max o.
Proof.
  unfold max_pointers, sbind, lift, sret.
  assert (exists t, hashv_tlv ref_hash = Ok t /\ tlv_len t = 36) as (t & -> & Lt).
  { eexists. split; [apply tlv_make_intro|reflexivity]. cbn [h_alg h_val ref_hash].
    split; [cbn [t_type]; unfold T_SHA_256; lia|]. split; [reflexivity|]. cbn [t_val].
    apply Forall_forall. intros y Hy. apply repeat_spec in Hy. lia. }
  destruct (ref_packet P rnd now o x total 1 k) as [[p1|] k1]; [|discriminate]. unfold packet_len.
  destruct (packet_wire p1) as [b1|] eqn:B1; [|discriminate]. cbn [bind].
  destruct (guard (zlen b1 <? op_max o) ValueError) eqn:G1; [|discriminate]. apply guard_ok in G1.
  rewrite Lt. destruct (int_div (op_max o - zlen b1) 36) as [q|] eqn:Eq; [|discriminate].
  destruct (ref_packet P rnd now o x total (q + 1) k1) as [[p2|] k2] eqn:R2; [|discriminate].
  destruct (packet_wire p2) as [b2|] eqn:B2; [|discriminate]. cbn [bind].
  destruct (guard (zlen b2 <=? op_max o) ValueError) eqn:G2; [|discriminate]. apply guard_ok in G2.
  destruct (guard (2 <=? q + 1) ValueError) eqn:G3; [|discriminate]. apply guard_ok in G3.
  intros [= <- <-]. exists p1, k1, b1, p2, b2, q. repeat split; auto; lia.
Qed.
End Ref.

Lemma fl_round_ge a b : 0 < a -> 0 < b ->
  a * fl_den (fl_round a b) <= 2 * (fl_num (fl_round a b) * b) /\ 0 < fl_den (fl_round a b).
Proof.
  intros Ha Hb. unfold fl_round. replace (a =? 0) with false by lia.
  pose proof (fl_exp_spec a b ltac:(lia) Hb) as X. cbn zeta in X. set (e := fl_exp a b) in *. clearbody e.
  set (P := 2 ^ Z.max 0 e) in *. set (N := 2 ^ Z.max 0 (- e)) in *.
  assert (HP : 0 < P) by (apply pow2_pos; lia). assert (HN : 0 < N) by (apply pow2_pos; lia).
  pose proof (rne_bound (a * N) (b * P) ltac:(nia)) as R.
  unfold fl_num, fl_den; cbn [fm fe]. fold P. fold N. set (q := rne _ _) in *. clearbody q P N.
  set (z := 2 ^ 52) in *. assert (1 < z) by reflexivity. clearbody z. split; [|assumption].
  assert (b * P <= a * N) by nia. nia.
Qed.

Lemma int_div_floor a q : 0 < a -> int_div a 36 = Ok q -> q < 2 ^ 40 -> q = a / 36.
Proof.
  intros Ha H Hq. unfold int_div, int_truediv in H. destruct (fl_finite _); [|discriminate]. apply Ok_inj in H.
  destruct (Z.lt_ge_cases a (2 ^ 53)) as [L|L].
  - rewrite round_trunc in H by lia. lia.
  - exfalso. destruct (fl_round_ge a 36) as (G & D); [lia|lia|]. unfold fl_trunc in H.
    set (n := fl_num _) in *. set (d := fl_den _) in *. clearbody n d.
    assert (n < (q + 1) * d). { rewrite <- H. pose proof (Z.mul_succ_div_gt n d D). lia. }
    change (2 ^ 40) with 1099511627776 in *. change (2 ^ 53) with 9007199254740992 in *. nia.
Qed.
